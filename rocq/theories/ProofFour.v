(** * ProofFour: three external rounds of Neptune with four words have degree 56 instead of 64 *)
From Coq Require Import Znumtheory.
From Verif Require Import Base Field Spec FieldPow SpecPoly SpecTop SpecFour LinAlg PolyFun TopCoef ProofDegree ProofZeroSum SpecPoseidon2 SpecNeptune MatLoops
  ModelRandom ModelNeptune ModelFields ProofNeptuneParams ProofNeptuneBij ProofTop ProofTop2 ProofTop3 ProofTop4.
Local Open Scope nat_scope.

Section Four.
  Context {F : Type} {Fo : FOps F} {p : Z} (HP : is_prime_field Fo p).
  Let HF := prime_field_is_field HP.
  Add Ring FringFr : (ff_ring _ HF).
  Local Notation two := (fadd f1 f1). Local Notation three := (fadd (fadd f1 f1) f1).

  Lemma f_of_Z_2 : f_of_Z 2 = two. Proof. change 2%Z with (1 + 1)%Z. rewrite !(f_of_Z_add HP), (f_of_Z_1 HP). reflexivity. Qed.
  Lemma f_of_Z_3 : f_of_Z 3 = three. Proof. change 3%Z with (1 + 1 + 1)%Z. rewrite !(f_of_Z_add HP), (f_of_Z_1 HP). reflexivity. Qed.
  Lemma f_of_Z_12 : f_of_Z 12 = fmul three (fadd two two).
  Proof. change 12%Z with ((1 + 1 + 1) * (1 + 1 + (1 + 1)))%Z. rewrite (f_of_Z_mul HP), !(f_of_Z_add HP), (f_of_Z_1 HP). reflexivity. Qed.
  Lemma top_low0 D E l f : D < E -> l = f0 -> poly_le D f -> poly_top E l f.
  Proof. intros H -> Hf. apply (top_low D); assumption. Qed.

  (** ** The S-box on a pair *)
  Section Pair.
    Variable ga : F.
    Definition pw (x y : F) : F := fadd (fsub (fsub x (fmul two y)) (fmul (fsub x y) (fsub x y))) ga.
    Definition pa (x y : F) : F := fst (np_pair f1 f1 ga x y).
    Definition pb (x y : F) : F := snd (np_pair f1 f1 ga x y).
    Lemma pa_eq x y : pa x y = fadd (fadd (fadd (fmul two x) y) (fmul three (fmul (fsub x y) (fsub x y)))) (fmul (pw x y) (pw x y)).
    Proof. unfold pa, np_pair, pw. cbn [fst]. ring. Qed.
    Lemma pb_eq x y : pb x y = fadd (fadd (fadd x (fmul three y)) (fmul (fadd three f1) (fmul (fsub x y) (fsub x y)))) (fmul (pw x y) (pw x y)).
    Proof. unfold pb, np_pair, pw. cbn [snd]. ring. Qed.
    Lemma pab x y : fsub (pa x y) (pb x y) = fsub (fsub x (fmul two y)) (fmul (fsub x y) (fsub x y)).
    Proof. rewrite pa_eq, pb_eq. ring. Qed.
    Lemma sq_diff a b : fsub (fmul a a) (fmul b b) = fmul (fsub a b) (fadd a b). Proof. ring. Qed.

    Variables (f g : F -> F) (D E : nat) (l : F).
    Hypothesis Hf : poly_le D f. Hypothesis Hg : poly_le D g. Hypothesis HE : 1 <= E. Hypothesis HDE : D < 2 * E.
    Hypothesis Hz : poly_top E l (fun x => fsub (f x) (g x)).
    Lemma z_sq : poly_top (2 * E) (fmul l l) (fun x => fmul (fsub (f x) (g x)) (fsub (f x) (g x))).
    Proof. apply (top_eq (E + E) _ (fmul l l)); [lia|reflexivity|]. exact (top_mul HF _ _ _ _ _ _ Hz Hz). Qed.
    Lemma pw_top : poly_top (2 * E) (fopp (fmul l l)) (fun x => pw (f x) (g x)).
    Proof.
      unfold pw. apply (top_eq (2 * E) (2 * E) (fadd (fsub f0 (fmul l l)) f0)); [reflexivity|ring|].
      apply (top_add HF _ _ _ (fun x => fsub (fsub (f x) (fmul two (g x))) (fmul (fsub (f x) (g x)) (fsub (f x) (g x)))) (fun _ => ga)); [|apply (top_const HF); lia].
      apply (top_sub HF _ _ _ (fun x => fsub (f x) (fmul two (g x)))); [|exact z_sq].
      apply (top_low D); [lia|]. apply (poly_sub HF D f (fun x => fmul two (g x)) Hf). apply (poly_scale HF), Hg.
    Qed.
    Lemma pair_high : poly_top (4 * E) (fpow l 4) (fun x => pa (f x) (g x)) /\ poly_top (4 * E) (fpow l 4) (fun x => pb (f x) (g x)).
    Proof.
      assert (W : poly_top (4 * E) (fpow l 4) (fun x => fmul (pw (f x) (g x)) (pw (f x) (g x)))).
      { apply (top_eq (2 * E + 2 * E) _ (fmul (fopp (fmul l l)) (fopp (fmul l l)))); [lia|cbn [fpow]; ring|]. exact (top_mul HF _ _ _ _ _ _ pw_top pw_top). }
      pose proof (top_le _ _ _ z_sq) as Z2.
      split.
      - apply (top_ext (4 * E) _ (fun x => fadd (fadd (fadd (fmul two (f x)) (g x)) (fmul three (fmul (fsub (f x) (g x)) (fsub (f x) (g x))))) (fmul (pw (f x) (g x)) (pw (f x) (g x))))).
        { intros x. symmetry. apply pa_eq. }
        apply (top_eq (4 * E) (4 * E) (fadd f0 (fpow l 4))); [reflexivity|ring|]. apply (top_add HF _ _ _ (fun x => fadd (fadd (fmul two (f x)) (g x)) (fmul three (fmul (fsub (f x) (g x)) (fsub (f x) (g x)))))); [|exact W].
        apply (top_low (2 * E)); [lia|]. apply (poly_add HF _ (fun x => fadd (fmul two (f x)) (g x))); [|apply (poly_scale HF), Z2].
        apply (poly_weaken D); [lia|]. apply (poly_add HF _ (fun x => fmul two (f x)) g); [apply (poly_scale HF), Hf|exact Hg].
      - apply (top_ext (4 * E) _ (fun x => fadd (fadd (fadd (f x) (fmul three (g x))) (fmul (fadd three f1) (fmul (fsub (f x) (g x)) (fsub (f x) (g x))))) (fmul (pw (f x) (g x)) (pw (f x) (g x))))).
        { intros x. symmetry. apply pb_eq. }
        apply (top_eq (4 * E) (4 * E) (fadd f0 (fpow l 4))); [reflexivity|ring|]. apply (top_add HF _ _ _ (fun x => fadd (fadd (f x) (fmul three (g x))) (fmul (fadd three f1) (fmul (fsub (f x) (g x)) (fsub (f x) (g x)))))); [|exact W].
        apply (top_low (2 * E)); [lia|]. apply (poly_add HF _ (fun x => fadd (f x) (fmul three (g x)))); [|apply (poly_scale HF), Z2].
        apply (poly_weaken D); [lia|]. apply (poly_add HF _ f (fun x => fmul three (g x))); [exact Hf|apply (poly_scale HF), Hg].
    Qed.
    Lemma pab_top : poly_top (2 * E) (fopp (fmul l l)) (fun x => fsub (pa (f x) (g x)) (pb (f x) (g x))).
    Proof.
      apply (top_ext _ _ (fun x => fsub (fsub (f x) (fmul two (g x))) (fmul (fsub (f x) (g x)) (fsub (f x) (g x))))).
      { intros x. symmetry. apply pab. }
      apply (top_eq (2 * E) (2 * E) (fsub f0 (fmul l l))); [reflexivity|ring|].
      apply (top_sub HF _ _ _ (fun x => fsub (f x) (fmul two (g x)))); [|exact z_sq].
      apply (top_low D); [lia|]. apply (poly_sub HF D f (fun x => fmul two (g x)) Hf). apply (poly_scale HF), Hg.
    Qed.
  End Pair.

  (** ** Two pairs whose differences are opposite in the highest degree *)
  Section Cross.
    Variables (ga : F) (f g h k : F -> F) (E K : nat) (u e : F).
    Hypothesis Hf : poly_le E f. Hypothesis Hg : poly_le E g. Hypothesis Hh : poly_le E h. Hypothesis Hk : poly_le E k.
    Hypothesis HK : 1 <= K. Hypothesis HE : 1 <= E.
    Hypothesis Hz : poly_top E u (fun x => fsub (f x) (g x)).
    Hypothesis Hz' : poly_top E (fopp u) (fun x => fsub (h x) (k x)).
    Hypothesis Hs : poly_top K e (fun x => fadd (fsub (f x) (g x)) (fsub (h x) (k x))).
    Local Notation dz x := (fmul (fsub (fsub (f x) (g x)) (fsub (h x) (k x))) (fadd (fsub (f x) (g x)) (fsub (h x) (k x)))).
    Lemma dz_top : poly_top (K + E) (fmul (fmul two u) e) (fun x => dz x).
    Proof.
      apply (top_eq (E + K) _ (fmul (fsub u (fopp u)) e)); [lia|ring|].
      apply (top_mul HF E K _ _ (fun x => fsub (fsub (f x) (g x)) (fsub (h x) (k x)))); [|exact Hs]. exact (top_sub HF E _ _ _ _ Hz Hz').
    Qed.
    Lemma lin_le (a b : F) (f' g' : F -> F) D : poly_le D f' -> poly_le D g' -> poly_le D (fun x => fadd (fmul a (f' x)) (fmul b (g' x))).
    Proof. intros H1 H2. apply (poly_add HF D (fun x => fmul a (f' x)) (fun x => fmul b (g' x))); apply (poly_scale HF); assumption. Qed.
    Lemma w_sub : poly_top (K + E) (fopp (fmul (fmul two u) e)) (fun x => fsub (pw ga (f x) (g x)) (pw ga (h x) (k x))).
    Proof.
      apply (top_ext _ _ (fun x => fsub (fadd (fadd (fmul f1 (f x)) (fmul (fopp two) (g x))) (fadd (fmul (fopp f1) (h x)) (fmul two (k x)))) (dz x))).
      { intros x. unfold pw. ring. }
      apply (top_eq (K + E) (K + E) (fsub f0 (fmul (fmul two u) e))); [reflexivity|ring|].
      apply (top_sub HF _ _ _ (fun x => fadd (fadd (fmul f1 (f x)) (fmul (fopp two) (g x))) (fadd (fmul (fopp f1) (h x)) (fmul two (k x))))); [|exact dz_top].
      apply (top_low E); [lia|]. apply (poly_add HF E (fun x => fadd (fmul f1 (f x)) (fmul (fopp two) (g x)))); apply lin_le; assumption.
    Qed.
    Lemma w_add : poly_top (2 * E) (fopp (fmul two (fmul u u))) (fun x => fadd (pw ga (f x) (g x)) (pw ga (h x) (k x))).
    Proof.
      apply (top_eq (2 * E) (2 * E) (fadd (fopp (fmul u u)) (fopp (fmul (fopp u) (fopp u))))); [reflexivity|ring|].
      apply (top_add HF _ _ _ (fun x => pw ga (f x) (g x)) (fun x => pw ga (h x) (k x)));
        [apply (pw_top ga f g E E u Hf Hg HE ltac:(lia) Hz)|apply (pw_top ga h k E E (fopp u) Hh Hk HE ltac:(lia) Hz')].
    Qed.
    Lemma cross_top : poly_top (K + 3 * E) (fmul (fadd two two) (fmul (fmul u (fmul u u)) e)) (fun x => fsub (pa ga (f x) (g x)) (pa ga (h x) (k x))).
    Proof.
      apply (top_ext _ _ (fun x => fadd (fadd (fadd (fadd (fmul two (f x)) (fmul f1 (g x))) (fadd (fmul (fopp two) (h x)) (fmul (fopp f1) (k x)))) (fmul three (dz x)))
        (fmul (fsub (pw ga (f x) (g x)) (pw ga (h x) (k x))) (fadd (pw ga (f x) (g x)) (pw ga (h x) (k x)))))).
      { intros x. rewrite !pa_eq. ring. }
      apply (top_eq (K + 3 * E) (K + 3 * E) (fadd f0 (fmul (fopp (fmul (fmul two u) e)) (fopp (fmul two (fmul u u)))))); [reflexivity|ring|].
      apply (top_add HF _ _ _ (fun x => fadd (fadd (fadd (fmul two (f x)) (fmul f1 (g x))) (fadd (fmul (fopp two) (h x)) (fmul (fopp f1) (k x)))) (fmul three (dz x)))).
      - apply (top_low (K + E)); [lia|].
        apply (poly_add HF _ (fun x => fadd (fadd (fmul two (f x)) (fmul f1 (g x))) (fadd (fmul (fopp two) (h x)) (fmul (fopp f1) (k x))))).
        + apply (poly_weaken E); [lia|]. apply (poly_add HF E (fun x => fadd (fmul two (f x)) (fmul f1 (g x)))); apply lin_le; assumption.
        + apply (poly_scale HF). exact (top_le _ _ _ dz_top).
      - apply (top_eq (K + E + 2 * E) _ (fmul (fopp (fmul (fmul two u) e)) (fopp (fmul two (fmul u u))))); [lia|reflexivity|].
        exact (top_mul HF _ _ _ _ _ _ w_sub w_add).
    Qed.
  End Cross.

  (** ** One round, word by word *)
  Definition mix4 (c : list F) (a0 b0 a1 b1 : F) : list F :=
    [fadd (fadd (fmul two a0) a1) (nth 0 c f0); fadd (fadd b0 (fmul two b1)) (nth 1 c f0);
     fadd (fadd a0 (fmul two a1)) (nth 2 c f0); fadd (fadd (fmul two b0) b1) (nth 3 c f0)].
  Definition is_four (ME : @mat F) : Prop := forall i j, i < 4 -> j < 4 ->
    ME i j = nth j (nth i [[two; f0; f1; f0]; [f0; f1; f0; two]; [f1; f0; two; f0]; [f0; two; f0; f1]] []) f0.
  Lemma ext_four ga ME c x : is_four ME -> np_ref_ext 4 (f1, f1, ga) ME c x =
    mix4 c (pa ga (nth 0 x f0) (nth 1 x f0)) (pb ga (nth 0 x f0) (nth 1 x f0)) (pa ga (nth 2 x f0) (nth 3 x f0)) (pb ga (nth 2 x f0) (nth 3 x f0)).
  Proof.
    intros HM. unfold np_ref_ext, mat_apply. cbn [seq map sumn nth]. rewrite !HM by lia. cbn [nth].
    unfold np_ref_sbox. cbn [seq map nth Nat.even Nat.sub]. unfold mix4, pa, pb. repeat (f_equal; [ring|]). f_equal. ring.
  Qed.
  Lemma ap_four ME (l : list F) : is_four ME -> mat_apply 4 4 ME l =
    [fadd (fmul two (nth 0 l f0)) (nth 2 l f0); fadd (nth 1 l f0) (fmul two (nth 3 l f0)); fadd (nth 0 l f0) (fmul two (nth 2 l f0)); fadd (fmul two (nth 1 l f0)) (nth 3 l f0)].
  Proof.
    intros HM. unfold mat_apply. cbn [seq map sumn nth]. rewrite !HM by lia. cbn [nth]. repeat (f_equal; [ring|]). f_equal. ring.
  Qed.

  Section Mix.
    Variables (c : list F) (A0 B0 A1 B1 : F -> F) (E G : nat) (a : F).
    Hypothesis HG : 1 <= G. Hypothesis HGE : G < E.
    Hypothesis HA : poly_top E a (fun x => fsub (A0 x) (A1 x)).
    Hypothesis H0 : poly_le G (fun x => fsub (A0 x) (B0 x)). Hypothesis H1 : poly_le G (fun x => fsub (A1 x) (B1 x)).
    Local Notation w i x := (nth i (mix4 c (A0 x) (B0 x) (A1 x) (B1 x)) f0).
    Lemma mix_low (g h k : F) : poly_le G (fun x => fadd (fadd (fmul g (fsub (A0 x) (B0 x))) (fmul h (fsub (A1 x) (B1 x)))) k).
    Proof. apply (poly_add HF G (fun x => fadd (fmul g (fsub (A0 x) (B0 x))) (fmul h (fsub (A1 x) (B1 x))))); [|apply (poly_const HF)]. apply (poly_add HF G (fun x => fmul g (fsub (A0 x) (B0 x)))); apply (poly_scale HF); assumption. Qed.
    Lemma mix_diff0 : poly_top E a (fun x => fsub (w 0 x) (w 1 x)).
    Proof.
      apply (top_ext _ _ (fun x => fadd (fsub (A0 x) (A1 x)) (fadd (fadd (fmul f1 (fsub (A0 x) (B0 x))) (fmul two (fsub (A1 x) (B1 x)))) (fsub (nth 0 c f0) (nth 1 c f0))))).
      { intros x. unfold mix4. cbn [nth]. ring. }
      apply (top_eq E E (fadd a f0)); [reflexivity|ring|]. apply (top_add HF); [exact HA|]. apply (top_low G); [lia|apply mix_low].
    Qed.
    Lemma mix_diff1 : poly_top E (fopp a) (fun x => fsub (w 2 x) (w 3 x)).
    Proof.
      apply (top_ext _ _ (fun x => fadd (fmul (fopp f1) (fsub (A0 x) (A1 x))) (fadd (fadd (fmul two (fsub (A0 x) (B0 x))) (fmul f1 (fsub (A1 x) (B1 x)))) (fsub (nth 2 c f0) (nth 3 c f0))))).
      { intros x. unfold mix4. cbn [nth]. ring. }
      apply (top_eq E E (fadd (fmul (fopp f1) a) f0)); [reflexivity|ring|]. apply (top_add HF); [apply (top_scale HF), HA|]. apply (top_low G); [lia|apply mix_low].
    Qed.
    Lemma mix_sum l0 l1 : poly_top G l0 (fun x => fsub (A0 x) (B0 x)) -> poly_top G l1 (fun x => fsub (A1 x) (B1 x)) ->
      poly_top G (fmul three (fadd l0 l1)) (fun x => fadd (fsub (w 0 x) (w 1 x)) (fsub (w 2 x) (w 3 x))).
    Proof.
      intros T0 T1. apply (top_ext _ _ (fun x => fadd (fadd (fmul three (fsub (A0 x) (B0 x))) (fmul three (fsub (A1 x) (B1 x))))
        (fadd (fsub (nth 0 c f0) (nth 1 c f0)) (fsub (nth 2 c f0) (nth 3 c f0))))).
      { intros x. unfold mix4. cbn [nth]. ring. }
      apply (top_eq G G (fadd (fadd (fmul three l0) (fmul three l1)) f0)); [reflexivity|ring|].
      apply (top_add HF _ _ _ (fun x => fadd (fmul three (fsub (A0 x) (B0 x))) (fmul three (fsub (A1 x) (B1 x))))); [|apply (top_const HF), HG].
      apply (top_add HF _ _ _ (fun x => fmul three (fsub (A0 x) (B0 x)))); apply (top_scale HF); assumption.
    Qed.
  End Mix.
  (** every word of a mixed state *)
  Lemma mix_words c A0 B0 A1 B1 D l m : 1 <= D -> poly_top D l A0 -> poly_top D l B0 -> poly_top D m A1 -> poly_top D m B1 ->
    tst D (fun x => mix4 c (A0 x) (B0 x) (A1 x) (B1 x)) [fadd (fmul two l) m; fadd l (fmul two m); fadd l (fmul two m); fadd (fmul two l) m].
  Proof.
    intros HD Ha Hb Ha1 Hb1 i. unfold mix4.
    assert (Q : forall (a b a' b' k : F) f g, poly_top D a f -> poly_top D b g -> poly_top D (fadd (fmul a' a) (fmul b' b)) (fun x => fadd (fadd (fmul a' (f x)) (fmul b' (g x))) k)).
    { intros a b a' b' k f g Hf Hg. apply (top_eq D D (fadd (fadd (fmul a' a) (fmul b' b)) f0)); [reflexivity|ring|].
      apply (top_add HF _ _ _ (fun x => fadd (fmul a' (f x)) (fmul b' (g x)))); [|apply (top_const HF), HD].
      apply (top_add HF _ _ _ (fun x => fmul a' (f x))); apply (top_scale HF); assumption. }
    destruct i as [|[|[|[|i]]]]; cbn [nth].
    - eapply top_ext; [|eapply top_eq; [reflexivity| |apply (Q l m two f1 (nth 0 c f0) A0 A1 Ha Ha1)]]; [intros x; cbv beta; ring|ring].
    - eapply top_ext; [|eapply top_eq; [reflexivity| |apply (Q l m f1 two (nth 1 c f0) B0 B1 Hb Hb1)]]; [intros x; cbv beta; ring|ring].
    - eapply top_ext; [|eapply top_eq; [reflexivity| |apply (Q l m f1 two (nth 2 c f0) A0 A1 Ha Ha1)]]; [intros x; cbv beta; ring|ring].
    - eapply top_ext; [|eapply top_eq; [reflexivity| |apply (Q l m two f1 (nth 3 c f0) B0 B1 Hb Hb1)]]; [intros x; cbv beta; ring|ring].
    - apply (top_ext D _ (fun _ => f0)); [intros x; destruct i; reflexivity|]. destruct i; apply (top_const HF), HD.
  Qed.

  Theorem three_rounds ga ME c0 c1 c2 D s L : is_four ME -> 1 <= D -> tst D s L ->
    tst (56 * D) (fun x => np_ref_ext 4 (f1, f1, ga) ME c2 (np_ref_ext 4 (f1, f1, ga) ME c1 (np_ref_ext 4 (f1, f1, ga) ME c0 (s x)))) (four_top L).
  Proof.
    intros HM HD Hs. unfold four_top. cbv zeta. set (m := fsub (nth 0 L f0) (nth 1 L f0)). set (n := fsub (nth 2 L f0) (nth 3 L f0)).
    set (u := fsub (fpow m 4) (fpow n 4)). set (q := fadd (fmul m m) (fmul n n)).
    assert (W : forall i, poly_le D (fun x => nth i (s x) f0)) by (intros i; apply (tst_low D s L i Hs)).
    assert (Z0 : poly_top D m (fun x => fsub (nth 0 (s x) f0) (nth 1 (s x) f0))) by (apply (top_sub HF); apply Hs).
    assert (Z1 : poly_top D n (fun x => fsub (nth 2 (s x) f0) (nth 3 (s x) f0))) by (apply (top_sub HF); apply Hs).
    (* first round *)
    set (A0 := fun x => pa ga (nth 0 (s x) f0) (nth 1 (s x) f0)). set (B0 := fun x => pb ga (nth 0 (s x) f0) (nth 1 (s x) f0)).
    set (A1 := fun x => pa ga (nth 2 (s x) f0) (nth 3 (s x) f0)). set (B1 := fun x => pb ga (nth 2 (s x) f0) (nth 3 (s x) f0)).
    destruct (pair_high ga _ _ D D m (W 0) (W 1) HD ltac:(lia) Z0) as [TA0 TB0]. destruct (pair_high ga _ _ D D n (W 2) (W 3) HD ltac:(lia) Z1) as [TA1 TB1].
    pose proof (pab_top ga _ _ D D m (W 0) (W 1) ltac:(lia) ltac:(lia) Z0) as G0. pose proof (pab_top ga _ _ D D n (W 2) (W 3) ltac:(lia) ltac:(lia) Z1) as G1.
    change (poly_top (4 * D) (fpow m 4) A0) in TA0. change (poly_top (4 * D) (fpow m 4) B0) in TB0. change (poly_top (4 * D) (fpow n 4) A1) in TA1. change (poly_top (4 * D) (fpow n 4) B1) in TB1.
    assert (U : poly_top (4 * D) u (fun x => fsub (A0 x) (A1 x))) by (apply (top_sub HF); assumption).
    set (y := fun x => mix4 c0 (A0 x) (B0 x) (A1 x) (B1 x)).
    pose proof (mix_words c0 A0 B0 A1 B1 (4 * D) _ _ ltac:(lia) TA0 TB0 TA1 TB1) as Wy. fold y in Wy.
    assert (Ly : forall i, poly_le (4 * D) (fun x => nth i (y x) f0)) by (intros i; apply (tst_low _ _ _ i Wy)).
    pose proof (mix_diff0 c0 A0 B0 A1 B1 (4 * D) (2 * D) u ltac:(lia) ltac:(lia) U (top_le _ _ _ G0) (top_le _ _ _ G1)) as Y0. 
    pose proof (mix_diff1 c0 A0 B0 A1 B1 (4 * D) (2 * D) u ltac:(lia) ltac:(lia) U (top_le _ _ _ G0) (top_le _ _ _ G1)) as Y1.
    pose proof (mix_sum c0 A0 B0 A1 B1 (2 * D) ltac:(lia) _ _ G0 G1) as Ys.
    (* second round *)
    set (A0' := fun x => pa ga (nth 0 (y x) f0) (nth 1 (y x) f0)). set (B0' := fun x => pb ga (nth 0 (y x) f0) (nth 1 (y x) f0)).
    set (A1' := fun x => pa ga (nth 2 (y x) f0) (nth 3 (y x) f0)). set (B1' := fun x => pb ga (nth 2 (y x) f0) (nth 3 (y x) f0)).
    destruct (pair_high ga _ _ (4 * D) (4 * D) u (Ly 0) (Ly 1) ltac:(lia) ltac:(lia) Y0) as [TA0' TB0']. destruct (pair_high ga _ _ (4 * D) (4 * D) (fopp u) (Ly 2) (Ly 3) ltac:(lia) ltac:(lia) Y1) as [TA1' TB1'].
    pose proof (pab_top ga _ _ (4 * D) (4 * D) u (Ly 0) (Ly 1) ltac:(lia) ltac:(lia) Y0) as G0'. pose proof (pab_top ga _ _ (4 * D) (4 * D) (fopp u) (Ly 2) (Ly 3) ltac:(lia) ltac:(lia) Y1) as G1'.
    pose proof (cross_top ga _ _ _ _ (4 * D) (2 * D) u _ (Ly 0) (Ly 1) (Ly 2) (Ly 3) ltac:(lia) ltac:(lia) Y0 Y1 Ys) as C.
    set (v := fmul (fadd two two) (fmul (fmul u (fmul u u)) (fmul three (fadd (fopp (fmul m m)) (fopp (fmul n n)))))) in C.
    change (poly_top (2 * D + 3 * (4 * D)) v (fun x => fsub (A0' x) (A1' x))) in C.
    set (y' := fun x => mix4 c1 (A0' x) (B0' x) (A1' x) (B1' x)).
    pose proof (mix_words c1 A0' B0' A1' B1' (4 * (4 * D)) _ (fpow (fopp u) 4) ltac:(lia) TA0' TB0' TA1' TB1') as Wy'. fold y' in Wy'.
    assert (Ly' : forall i, poly_le (4 * (4 * D)) (fun x => nth i (y' x) f0)) by (intros i; apply (tst_low _ _ _ i Wy')).
    pose proof (mix_diff0 c1 A0' B0' A1' B1' (2 * D + 3 * (4 * D)) (2 * (4 * D)) v ltac:(lia) ltac:(lia) C (top_le _ _ _ G0') (top_le _ _ _ G1')) as Y0'.
    pose proof (mix_diff1 c1 A0' B0' A1' B1' (2 * D + 3 * (4 * D)) (2 * (4 * D)) v ltac:(lia) ltac:(lia) C (top_le _ _ _ G0') (top_le _ _ _ G1')) as Y1'.
    (* third round *)
    destruct (pair_high ga _ _ (4 * (4 * D)) (2 * D + 3 * (4 * D)) v (Ly' 0) (Ly' 1) ltac:(lia) ltac:(lia) Y0') as [TA0'' TB0''].
    destruct (pair_high ga _ _ (4 * (4 * D)) (2 * D + 3 * (4 * D)) (fopp v) (Ly' 2) (Ly' 3) ltac:(lia) ltac:(lia) Y1') as [TA1'' TB1''].
    pose proof (mix_words c2 _ _ _ _ (4 * (2 * D + 3 * (4 * D))) _ (fpow (fopp v) 4) ltac:(lia) TA0'' TB0'' TA1'' TB1'') as R.
    intros i. eapply top_ext; [|eapply top_eq; [| |exact (R i)]].
    - intros x. cbv beta. rewrite !(ext_four ga ME) by exact HM. reflexivity.
    - lia.
    - assert (Ev : fadd (fmul two (fpow v 4)) (fpow (fopp v) 4) = four_coef m n).
      { unfold four_coef. fold u q. rewrite f_of_Z_3, f_of_Z_12. unfold v, q. cbn [fpow]. ring. }
      assert (Ev' : fadd (fpow v 4) (fmul two (fpow (fopp v) 4)) = four_coef m n).
      { rewrite <- Ev. cbn [fpow]. ring. }
      rewrite Ev, Ev'. reflexivity.
  Qed.

  (** ** Any number of rounds *)
  Local Notation ext_step ga ME rc := (fun s r => np_ref_ext 4 (f1, f1, ga) ME (nth r rc []) s).
  Lemma four_bound_3 n : four_bound (3 + n) = 56 * four_bound n.
  Proof.
    unfold four_bound. replace (3 + n) with (n + 1 * 3) by lia. rewrite Nat.div_add, Nat.mod_add by lia.
    rewrite Nat.add_comm, Nat.pow_add_r. change (56 ^ 1) with 56. lia.
  Qed.
  Lemma four_bound_pos n : 1 <= four_bound n.
  Proof. unfold four_bound. pose proof (pow_pos 56 (n / 3) ltac:(lia)). pose proof (pow_pos 4 (n mod 3) ltac:(lia)). nia. Qed.
  Lemma four_fold ga ME (rc : list (list F)) : is_four ME -> forall n l, length l < n -> forall D s L, 1 <= D -> tst D s L ->
    exists L', tst (D * four_bound (length l)) (fun x => fold_left (ext_step ga ME rc) l (s x)) L'.
  Proof.
    intros HM n. induction n as [|n IH]; intros l Hn D s L HD Hs; [lia|].
    destruct l as [|r0 [|r1 [|r2 l]]]; cbn [length fold_left] in *.
    - exists L. change (four_bound 0) with 1. rewrite Nat.mul_1_r. exact Hs.
    - eexists. change (four_bound 1) with 4. apply (np_ext_top HF 4 ga ME (nth r0 rc []) D s L HD Hs).
    - eexists. change (four_bound 2) with (4 * 4). rewrite Nat.mul_assoc.
      apply (np_ext_top HF 4 ga ME (nth r1 rc []) (D * 4) (fun x => np_ref_ext 4 (f1, f1, ga) ME (nth r0 rc []) (s x)) (top_pairs 4 ME L)); [lia|].
      apply (np_ext_top HF 4 ga ME (nth r0 rc []) D s L HD Hs).
    - change (S (S (S (length l)))) with (3 + length l). rewrite four_bound_3, Nat.mul_assoc.
      apply (IH l ltac:(lia) (D * 56) (fun x => np_ref_ext 4 (f1, f1, ga) ME (nth r2 rc []) (np_ref_ext 4 (f1, f1, ga) ME (nth r1 rc []) (np_ref_ext 4 (f1, f1, ga) ME (nth r0 rc []) (s x)))) (four_top L)); [lia|].
      rewrite Nat.mul_comm. apply three_rounds; assumption.
  Qed.
  Lemma ext_is_four n rng : is_four (entry (mk_mat 4 4 (np_ext_entry 4 n rng))).
  Proof.
    intros i j Hi Hj. rewrite mk_mat_entry by assumption. pose proof f_of_Z_2 as E2.
    destruct i as [|[|[|[|i]]]]; try lia; destruct j as [|[|[|[|j]]]]; try lia; cbn -[f_of_Z]; rewrite ?E2; reflexivity.
  Qed.

  Theorem np4_degree dbg fuel rng d rf rp (P : NeptuneParams F) :
    np_new dbg fuel rng 4 d rf rp = Ok P -> (N.of_nat rf + N.of_nat rp < usize_mod)%N ->
    line_degree 4 (four_bound (rf / 2) * four_bound (rf / 2) * d ^ rp) (np_permutation dbg P).
  Proof.
    intros HN HU. destruct (np_new_ok HF _ _ _ _ _ _ _ _ HN HU) as [[Hd [He _]] [_ [_ [_ [_ [_ [_ [_ [EM [_ [_ [[k Eabc] _]]]]]]]]]]]].
    pose proof (sbox_two _ Hd) as H2. set (h := rf / 2) in *. pose proof (four_bound_pos h) as Hb. pose proof (pow_pos d rp ltac:(lia)) as Hp.
    set (ME := entry (np_m_e P)). set (MI := np_int_matrix (fun i => fadd (nth i (np_mu P) f0) f1)).
    assert (HM : is_four ME) by (unfold ME; rewrite EM; apply ext_is_four).
    intros a b La. exists (fun x => np_ref 4 d rf rp (np_abc P) ME MI (np_rc P) (line a b x)). split.
    { intros x. apply (np_permutation_reference HP dbg fuel rng 4 d rf rp P _ HN HU); [rewrite line_length; exact La|left; lia]. }
    intros i. rewrite Eabc. unfold np_ref. cbv zeta. fold h.
    pose proof (tst_apply HF 1 4 4 ME _ _ ltac:(lia) (tst_line HF a b)) as T0.
    destruct (four_fold (rng k) ME (np_rc P) HM _ (seq 0 h) (Nat.lt_succ_diag_r _) 1 _ _ ltac:(lia) T0) as [L1 T1]. rewrite seq_length in T1.
    pose proof (tst_fold (fun s r => np_ref_int 4 d MI (nth r (np_rc P) []) s) (top_part 4 d MI) d (seq h rp) ltac:(lia)
      (fun D s L r HD Hs => np_int_top HF 4 d MI (nth r (np_rc P) []) D s L HD H2 Hs) (1 * four_bound h) _ _ ltac:(nia) T1) as T2. rewrite seq_length in T2.
    destruct (four_fold (rng k) ME (np_rc P) HM _ (seq (h + rp) h) (Nat.lt_succ_diag_r _) (1 * four_bound h * d ^ rp) _ _ ltac:(nia) T2) as [L3 T3]. rewrite seq_length in T3.
    pose proof (tst_low _ _ _ i T3) as R. replace (four_bound h * four_bound h * d ^ rp) with (1 * four_bound h * d ^ rp * four_bound h) by ring. exact R.
  Qed.

  Theorem np4_line_top dbg fuel rng d rp (P : NeptuneParams F) :
    np_new dbg fuel rng 4 d 6 rp = Ok P -> (N.of_nat 6 + N.of_nat rp < usize_mod)%N ->
    line_top 4 (56 * 56 * d ^ rp) (np_permutation dbg P)
      (np4_top d rp (entry (np_m_e P)) (np_int_matrix (fun i => fadd (nth i (np_mu P) f0) f1))).
  Proof.
    intros HN HU. destruct (np_new_ok HF _ _ _ _ _ _ _ _ HN HU) as [[Hd [He _]] [_ [_ [_ [_ [_ [_ [_ [EM [_ [_ [[k Eabc] _]]]]]]]]]]]].
    pose proof (sbox_two _ Hd) as H2. pose proof (pow_pos d rp ltac:(lia)) as Hp.
    set (ME := entry (np_m_e P)). set (MI := np_int_matrix (fun i => fadd (nth i (np_mu P) f0) f1)).
    assert (HM : is_four ME) by (unfold ME; rewrite EM; apply ext_is_four).
    apply (top_of_ref HF 4 _ _ (np_ref 4 d 6 rp (np_abc P) ME MI (np_rc P))).
    { intros x Lx. apply (np_permutation_reference HP dbg fuel rng 4 d 6 rp P _ HN HU); [exact Lx|left; lia]. }
    intros s L Hs. rewrite Eabc. unfold np_ref, np4_top, top_rounds. cbv zeta. change (6 / 2) with 3. cbn [seq fold_left Nat.iter].
    pose proof (tst_apply HF 1 4 4 ME _ _ ltac:(lia) Hs) as T0.
    pose proof (three_rounds (rng k) ME (nth 0 (np_rc P) []) (nth 1 (np_rc P) []) (nth 2 (np_rc P) []) 1 _ _ HM ltac:(lia) T0) as T1.
    pose proof (tst_fold (fun s r => np_ref_int 4 d MI (nth r (np_rc P) []) s) (top_part 4 d MI) d (seq 3 rp) ltac:(lia)
      (fun D s L r HD Hs => np_int_top HF 4 d MI (nth r (np_rc P) []) D s L HD H2 Hs) (56 * 1) _ _ ltac:(lia) T1) as T2. rewrite seq_length in T2.
    pose proof (three_rounds (rng k) ME (nth (3 + rp) (np_rc P) []) (nth (S (3 + rp)) (np_rc P) []) (nth (S (S (3 + rp))) (np_rc P) []) (56 * 1 * d ^ rp) _ _ HM ltac:(nia) T2) as T3.
    eapply tst_eq; [| |exact T3]; [ring|reflexivity].
  Qed.

  (** ** The bound of C65 is not reached *)
  Lemma four_less h : 3 <= h -> four_bound h < 4 ^ h.
  Proof.
    intros Hh. unfold four_bound. pose proof (Nat.div_mod h 3 ltac:(lia)) as E. assert (H1 : 1 <= h / 3) by (apply (Nat.div_le_lower_bound h 3 1); lia).
    rewrite E at 3. rewrite Nat.pow_add_r, Nat.pow_mul_r. change (4 ^ 3) with 64.
    assert (56 ^ (h / 3) < 64 ^ (h / 3)) by (apply Nat.pow_lt_mono_l; lia). pose proof (pow_pos 4 (h mod 3) ltac:(lia)). nia.
  Qed.
  Theorem np4_not_reached dbg fuel rng d rf rp (P : NeptuneParams F) :
    np_new dbg fuel rng 4 d rf rp = Ok P -> (N.of_nat rf + N.of_nat rp < usize_mod)%N -> 6 <= rf ->
    forall a b g i, length a = 4 -> length b = 4 -> (forall x, np_permutation dbg P (line a b x) = Ok (g x)) -> i < 4 ->
    ~ exact_degree (4 ^ rf * d ^ rp) (fun x => nth i (g x) f0).
  Proof.
    intros HN HU H6 a b g i La Lb Hg Hi [_ H]. destruct (np4_degree _ _ _ _ _ _ _ HN HU a b La) as [g' [Hg' Hd]].
    destruct (np_new_ok HF _ _ _ _ _ _ _ _ HN HU) as [[Hd' [He _]] _]. pose proof (sbox_two _ Hd') as H2.
    apply (H (four_bound (rf / 2) * four_bound (rf / 2) * d ^ rp)).
    - pose proof (half_even rf He) as Hh. rewrite Hh at 3. rewrite Nat.pow_add_r. assert (H3 : 3 <= rf / 2) by lia. pose proof (four_less _ H3) as L.
      pose proof (pow_pos d rp ltac:(lia)). apply Nat.mul_lt_mono_pos_r; [lia|]. apply Nat.mul_lt_mono; exact L.
    - destruct (Hd i) as [c [Lc Ec]]. exists c. split; [exact Lc|]. intros x. rewrite <- Ec. pose proof (Hg x) as E. rewrite Hg' in E. injection E as E. rewrite E. reflexivity.
  Qed.
End Four.

(** ** The shipped instances *)
Section Ship4.
  Context {F : Type} {Fo : FOps F} {p : Z} (HP : is_prime_field Fo p).
  Let HF := prime_field_is_field HP.
  Add Ring FringFs : (ff_ring _ HF).
  Local Notation two := (fadd f1 f1). Local Notation three := (fadd (fadd f1 f1) f1).
  Lemma one_sub_one : fsub f1 f1 = (f0 : F). Proof. ring. Qed.
  Lemma four_coef_scale s m n : four_coef (fmul s m) (fmul s n) = fmul (fpow s 56) (four_coef m n).
  Proof. unfold four_coef. rewrite !(f_of_Z_3 HP), !(f_of_Z_12 HP). cbn [fpow]. ring. Qed.
  Lemma four_top_scale s l : four_top (scale s l) = scale (fpow s 56) (four_top l).
  Proof.
    assert (E : forall a b, fsub (fmul s a) (fmul s b) = fmul s (fsub a b)) by (intros; ring).
    unfold four_top. cbv zeta. rewrite !(scale_nth HF), !E, four_coef_scale. unfold scale. cbn [map]. reflexivity.
  Qed.
  Lemma four_coef_nonzero m n : (3 < p)%Z -> fpow m 4 <> fpow n 4 -> fadd (fmul m m) (fmul n n) <> f0 -> four_coef m n <> f0.
  Proof.
    intros Hp H1 H2 E. unfold four_coef in E.
    assert (H3 : f_of_Z 3 <> (f0 : F)) by (apply (f_of_Z_neq_0 HP); lia).
    assert (H12 : f_of_Z 12 <> (f0 : F)).
    { change 12%Z with (3 * (2 * 2))%Z. rewrite !(f_of_Z_mul HP). intros X. destruct (fmul_integral HF _ _ X) as [X1|X1]; [contradiction|].
      destruct (fmul_integral HF _ _ X1) as [X2|X2]; revert X2; apply (f_of_Z_neq_0 HP); lia. }
    destruct (fmul_integral HF _ _ E) as [X|X]; [contradiction|]. revert X. apply (fpow_neq_0 HF). intros X.
    destruct (fmul_integral HF _ _ X) as [X1|X1]; [|contradiction]. destruct (fmul_integral HF _ _ X1) as [X2|X2]; [contradiction|].
    revert X2. apply (fpow_neq_0 HF). intros X2. apply H1. apply (fsub_eq_0 HF). exact X2.
  Qed.
  Lemma small_coef (a b : Z) : (3 < p)%Z -> ((a ^ 4 - b ^ 4) mod p <> 0)%Z -> ((a * a + b * b) mod p <> 0)%Z -> four_coef (f_of_Z a) (f_of_Z b) <> (f0 : F).
  Proof.
    intros Hp H1 H2. pose proof (pf_p_ge_2 HP) as P2. apply four_coef_nonzero; [exact Hp| |].
    - intros E. apply H1. assert (Q : forall z, fpow (f_of_Z z : F) 4 = f_of_Z (z ^ 4)).
      { intros z. replace (z ^ 4)%Z with (z * (z * (z * (z * 1))))%Z by ring. rewrite !(f_of_Z_mul HP), (f_of_Z_1 HP). reflexivity. }
      rewrite !Q in E. apply (f_of_Z_eq_iff HP) in E. rewrite Zminus_mod, E, Z.sub_diag. apply Z.mod_0_l. lia.
    - rewrite <- !(f_of_Z_mul HP), <- (f_of_Z_add HP). intros E. apply H2. apply (f_of_Z_eq_0 HP) in E. apply Z.mod_divide; [lia|exact E].
  Qed.
  Lemma unit_top ME j : (5 < p)%Z -> is_four ME -> j < 4 -> nth 0 (four_top (mat_apply 4 4 ME (unit_word 4 j))) f0 <> (f0 : F).
  Proof.
    intros Hp HM Hj. rewrite (ap_four HP ME) by exact HM.
    assert (Q : exists a b, fsub (nth 0 (mat_apply 4 4 ME (unit_word 4 j)) f0) (nth 1 (mat_apply 4 4 ME (unit_word 4 j)) f0) = f_of_Z a /\
      fsub (nth 2 (mat_apply 4 4 ME (unit_word 4 j)) f0) (nth 3 (mat_apply 4 4 ME (unit_word 4 j)) f0) = f_of_Z b /\ In (a, b) [(2, 1); (-1, -2); (1, 2); (-2, -1)]%Z).
    { assert (E1 : f_of_Z 1 = (f1 : F)) by exact (f_of_Z_1 HP). assert (E2 : f_of_Z 2 = (two : F)) by exact (f_of_Z_2 HP).
      assert (E3 : f_of_Z (-1) = (fopp f1 : F)) by (change (-1)%Z with (0 - 1)%Z; rewrite (f_of_Z_sub HP), (f_of_Z_0 HP), (f_of_Z_1 HP); ring).
      assert (E4 : f_of_Z (-2) = (fopp two : F)) by (change (-2)%Z with (0 - 2)%Z; rewrite (f_of_Z_sub HP), (f_of_Z_0 HP), (f_of_Z_2 HP); ring).
      rewrite (ap_four HP ME) by exact HM.
      destruct j as [|[|[|[|j]]]]; [exists 2%Z, 1%Z|exists (-1)%Z, (-2)%Z|exists 1%Z, 2%Z|exists (-2)%Z, (-1)%Z|lia]; rewrite ?E1, ?E2, ?E3, ?E4;
        cbn [unit_word seq map Nat.eqb nth]; (split; [ring|split; [ring|cbn [In]; tauto]]). }
    rewrite <- (ap_four HP ME) by exact HM. destruct Q as [a [b [Ea [Eb Hab]]]]. unfold four_top. cbv zeta. rewrite Ea, Eb. cbn [nth].
    apply small_coef; [lia| |].
    - intros E. apply Z.mod_divide in E; [|lia]. assert (D15 : (p | 15)%Z).
      { destruct E as [q Eq]. cbn [In] in Hab. destruct Hab as [X|[X|[X|[X|[]]]]]; injection X as <- <-; [exists q|exists (-q)%Z|exists (-q)%Z|exists q]; cbn in Eq; lia. }
      change 15%Z with (3 * 5)%Z in D15. apply (prime_mult _ (pf_prime _ _ HP)) in D15. destruct D15 as [D|D]; apply Z.divide_pos_le in D; lia.
    - intros E. apply Z.mod_divide in E; [|lia]. assert (D5 : (p | 5)%Z).
      { destruct E as [q Eq]. cbn [In] in Hab. destruct Hab as [X|[X|[X|[X|[]]]]]; injection X as <- <-; exists q; cbn in Eq; lia. }
      apply Z.divide_pos_le in D5; lia.
  Qed.
  Lemma col_top (m0 : F) mu i : (3 < p)%Z -> m0 = mu 0 -> m0 <> f1 -> i < 4 -> nth i (four_top (col0 4 (np_int_matrix mu))) f0 <> (f0 : F).
  Proof.
    intros Hp -> Hm Hi. unfold four_top, col0, np_int_matrix. cbv zeta. cbn [seq map Nat.eqb nth].
    assert (Hz : fsub (mu 0) f1 <> f0) by (intros E; apply Hm, (fsub_eq_0 HF), E).
    assert (C : four_coef (fsub (mu 0) f1) (fsub f1 f1) <> f0).
    { apply four_coef_nonzero; [exact Hp| |].
      - intros E. apply (fpow_neq_0 HF _ 4 Hz). rewrite E. cbn [fpow]. ring.
      - intros E. assert (E' : fmul (fsub (mu 0) f1) (fsub (mu 0) f1) = f0) by (rewrite <- E; ring). destruct (fmul_integral HF _ _ E'); contradiction. }
    destruct i as [|[|[|[|i]]]]; try lia; exact C.
  Qed.
End Ship4.

Theorem np4_shipped_words : forall I, In I np_instances -> ni_t I = 4 ->
  forall F (Fo : FOps F), is_prime_field Fo (ni_p I) -> forall dbg fuel rng (Q : NeptuneParams F),
  np_new dbg fuel rng (ni_t I) (ni_d I) (ni_rf I) (ni_rp I) = Ok Q -> nth 0 (np_mu Q) f0 <> f0 ->
  word_degree 4 (56 * 56 * ni_d I ^ ni_rp I) (np_permutation dbg Q).
Proof.
  intros I HI H4 F Fo HP dbg fuel rng Q HQ Hmu. pose proof (prime_field_is_field HP) as HF.
  assert (S : (2 ^ 200 <? ni_p I)%Z && (ni_rf I =? 6) && (1 <=? ni_rp I) = true).
  { assert (A : forallb (fun I => negb (ni_t I =? 4) || ((2 ^ 200 <? ni_p I)%Z && (ni_rf I =? 6) && (1 <=? ni_rp I))) np_instances = true) by (vm_compute; reflexivity).
    rewrite forallb_forall in A. specialize (A I HI). rewrite H4 in A. exact A. }
  apply andb_true_iff in S. destruct S as [S Hk]. apply andb_true_iff in S. destruct S as [Big H6]. apply Nat.leb_le in Hk. apply Nat.eqb_eq in H6.
  pose proof (proj1 (forallb_forall _ _) np_low_all I HI) as C. unfold np_low in C. rewrite Big in C. cbn [negb orb] in C.
  apply andb_true_iff in C. destruct C as [C C2]. apply andb_true_iff in C. destruct C as [C1 C3]. apply N.ltb_lt in C3. apply Z.ltb_lt in C2. apply pow2_lt_Z in C2.
  assert (Hp5 : (5 < ni_p I)%Z) by (apply Z.ltb_lt in Big; eapply Z.lt_trans; [|exact Big]; reflexivity).
  rewrite H4, H6 in *.
  destruct (np_new_ok HF _ _ _ _ _ _ _ _ HQ C3) as [[Hd [He _]] [_ [_ [_ [_ [_ [_ [_ [EM [Lm [Hm _]]]]]]]]]]].
  pose proof (pow_pos (ni_d I) (ni_rp I) ltac:(pose proof (sbox_two _ Hd); lia)) as HD.
  pose proof (np4_line_top HP dbg fuel rng _ _ Q HQ C3) as T.
  apply (exact_words F Fo _ _ _ _ (top_line_exact F Fo _ HP _ _ _ _ T ltac:(nia) ltac:(change (4 ^ 6) with 4096 in C2; nia))).
  intros j i Hj Hi. unfold np4_top.
  apply (tops_nonzero HF 4 (ni_d I) 1 (ni_rp I) 56 four_top); [intros s l; apply (four_top_scale HP)|lia|exact Hk| | |].
  - unfold np_int_matrix. cbn [Nat.eqb]. destruct (Hm 0 ltac:(lia)) as [k [_ [Nk Ek]]]. rewrite Ek. intros E. apply Nk. rewrite <- E. symmetry. apply (sub_one_add HF).
  - cbn [Nat.iter]. apply (unit_top HP); [exact Hp5|rewrite EM; apply (ext_is_four HP)|exact Hj].
  - cbn [Nat.iter]. apply (col_top HP (fadd (nth 0 (np_mu Q) f0) f1)); [lia|reflexivity| |exact Hi].
    intros E. apply Hmu. rewrite <- (add_one_sub HF (nth 0 (np_mu Q) f0)), E. apply (one_sub_one HP).
Qed.
