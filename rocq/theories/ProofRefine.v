(** * ProofRefine: what a debug build returns, a release build returns too *)
From Verif Require Import Base Field Spec ModelUtils ModelPoseidon2 ModelPoseidon ModelGmimc ModelNeptune ModelMerkle
  ProofMatInverse ProofTotal SpecRagged ProofRagged.

(** [r2] returns whatever [r1] returns *)
Definition le {A} (r1 r2 : res A) : Prop := forall a, r1 = Ok a -> r2 = Ok a.

Lemma le_refl {A} (r : res A) : le r r.
Proof. intros a H. exact H. Qed.
Lemma le_bind {A B} (r1 r2 : res A) (k1 k2 : A -> res B) :
  le r1 r2 -> (forall a, le (k1 a) (k2 a)) -> le (bind r1 k1) (bind r2 k2).
Proof. intros H K b E. apply bind_ok in E. destruct E as (a & E1 & E2). rewrite (H a E1). apply K. exact E2. Qed.
Lemma le_list {X St} (l : list X) (f g : X -> St -> res St) s :
  (forall x s, le (f x s) (g x s)) -> le (for_list l f s) (for_list l g s).
Proof. intros H. revert s. induction l as [|x l IH]; intros s; [apply le_refl|]. apply le_bind; [apply H|exact IH]. Qed.
Lemma le_range {St} lo hi (f g : nat -> St -> res St) s :
  (forall x s, le (f x s) (g x s)) -> le (for_range lo hi f s) (for_range lo hi g s).
Proof. apply le_list. Qed.
Lemma le_range_rev {St} lo hi (f g : nat -> St -> res St) s :
  (forall x s, le (f x s) (g x s)) -> le (for_range_rev lo hi f s) (for_range_rev lo hi g s).
Proof. apply le_list. Qed.
Lemma le_debug_assert b : le (debug_assert true b) (debug_assert false b).
Proof. intros [] _. reflexivity. Qed.
Lemma le_uadd a b : le (uadd true a b) (uadd false a b).
Proof. intros v. unfold uadd. destruct (_ <? _)%N; [auto|discriminate]. Qed.
Lemma le_usub a b : le (usub true a b) (usub false a b).
Proof. intros v. unfold usub. destruct (_ <=? _); [auto|discriminate]. Qed.
Lemma le_umulN a b : le (umulN true a b) (umulN false a b).
Proof. intros v. unfold umulN. destruct (_ <? _)%N; [auto|discriminate]. Qed.

Ltac mono :=
  repeat first
    [ apply le_refl | apply le_debug_assert | apply le_uadd | apply le_usub | apply le_umulN
    | apply le_bind | apply le_range | apply le_range_rev | apply le_list
    | match goal with
      | |- forall _, _ => intro
      | |- le (if ?b then _ else _) (if ?b then _ else _) => destruct b
      | |- le (match ?b with _ => _ end) (match ?b with _ => _ end) => destruct b
      end ].

Section Refine.
  Context {F : Type} {Fo : FOps F}.

  (** ** mat_inverse on matrices of any shape *)
  Definition lens (m : list (list F)) : list nat := map (@length F) m.

  Lemma lens_set m i (r r' : list F) : nth_error m i = Some r -> length r' = length r -> lens (set_nth m i r') = lens m.
  Proof.
    revert i. induction m as [|a m IH]; intros [|i] E L; cbn in E; try discriminate.
    - injection E as ->. unfold set_nth, lens. cbn. rewrite L. reflexivity.
    - change (set_nth (a :: m) (S i) r') with (a :: set_nth m i r'). unfold lens in *. cbn [map]. f_equal. apply IH; assumption.
  Qed.

  Lemma upd2_lens m i j v m' : upd2 m i j v = Ok m' -> lens m' = lens m.
  Proof.
    unfold upd2, idx. destruct (nth_error m i) as [r|] eqn:E; [|discriminate]. cbn [bind]. unfold upd.
    destruct (j <? length r) eqn:Ej; [|discriminate]. cbn [bind]. apply Nat.ltb_lt in Ej.
    destruct (i <? length m); [|discriminate]. intros H. injection H as <-.
    apply (lens_set m i r); [exact E|]. apply set_nth_length. exact Ej.
  Qed.

  Definition keeps (f : St (F := F) -> res St) : Prop := forall s s', f s = Ok s' -> lens (fst s') = lens (fst s).

  Lemma keeps_list {X} (l : list X) f : (forall x, keeps (f x)) -> keeps (for_list l f).
  Proof.
    intros H. induction l as [|x l IH]; intros s s' E; cbn [for_list] in E; [injection E as <-; reflexivity|].
    apply bind_ok in E. destruct E as (s1 & E1 & E2). rewrite (IH _ _ E2). apply (H x _ _ E1).
  Qed.

  Lemma keeps_down_col row j el col : keeps (mi_down_col row j el col).
  Proof.
    intros [m inv] s' H. unfold mi_down_col in H. apply bind_ok in H. destruct H as (m' & H1 & H).
    apply bind_ok in H. destruct H as (i' & _ & H). injection H as <-. cbn [fst].
    destruct (col <? j); [eapply upd2_lens; eauto|]. apply bind_ok in H1. destruct H1 as (? & _ & H1).
    apply bind_ok in H1. destruct H1 as (? & _ & H1). eapply upd2_lens; eauto.
  Qed.

  Lemma keeps_scale_col row el col : keeps (mi_scale_col row el col).
  Proof.
    intros [m inv] s' H. unfold mi_scale_col in H. destruct (Nat.compare col row).
    - apply bind_ok in H. destruct H as (m' & H1 & H). do 2 (apply bind_ok in H; destruct H as (? & _ & H)).
      injection H as <-. eapply upd2_lens; eauto.
    - do 2 (apply bind_ok in H; destruct H as (? & _ & H)). injection H as <-. reflexivity.
    - apply bind_ok in H. destruct H as (? & _ & H). apply bind_ok in H. destruct H as (m' & H1 & H).
      injection H as <-. eapply upd2_lens; eauto.
  Qed.

  Lemma keeps_down_j n row j : keeps (mi_down_j n row j).
  Proof.
    intros s s' H. unfold mi_down_j in H. apply bind_ok in H. destruct H as (el & _ & H).
    eapply keeps_list; [|exact H]. intros c. apply keeps_down_col.
  Qed.

  Lemma keeps_down_row n row : keeps (mi_down_row n row).
  Proof.
    intros s s' H. unfold mi_down_row in H. apply bind_ok in H. destruct H as (s1 & H1 & H).
    do 2 (apply bind_ok in H; destruct H as (? & _ & H)).
    apply keeps_list in H; [|intros c; apply keeps_scale_col]. rewrite H.
    apply keeps_list in H1; [exact H1|]. intros j. apply keeps_down_j.
  Qed.

  (** a loop that returns has done each of its steps from a state with the same row lengths *)
  Lemma step_of {X} (l : list X) f s s' x : (forall x, keeps (f x)) -> for_list l f s = Ok s' -> In x l ->
    exists a b, f x a = Ok b /\ lens (fst a) = lens (fst s).
  Proof.
    intros K. revert s. induction l as [|y l IH]; intros s H Hin; [destruct Hin|]. cbn [for_list] in H. apply bind_ok in H. destruct H as (s1 & H1 & H2).
    destruct Hin as [<-|Hin]; [eauto|].
    destruct (IH _ H2 Hin) as (a & b & E & L). exists a, b. split; [exact E|]. rewrite L. apply (K y _ _ H1).
  Qed.

  Lemma lens_nth m m' i : lens m = lens m' -> length (nth i m ([] : list F)) = length (nth i m' []).
  Proof.
    intros H. change (length (nth i m [])) with (length (nth i m ([] : list F))).
    rewrite <- !(map_nth (@length F)). unfold lens in H. rewrite H. reflexivity.
  Qed.

  Lemma inverse_returns_wide dbg (m B : list (list F)) : mat_inverse dbg m = Ok B -> wide (length m) m.
  Proof.
    intros H. split; [reflexivity|].
    destruct (Nat.eq_dec (length (nth 0 m [])) (length m)) as [H0|H0]; [|rewrite mat_inverse_not_square in H by exact H0; discriminate].
    split; [exact H0|]. intros i Hi. destruct i as [|i]; [lia|].
    destruct (Nat.le_gt_cases (length m) (length (nth (S i) m []))) as [L|L]; [exact L|exfalso].
    unfold mat_inverse in H. do 3 (apply bind_ok in H; destruct H as (? & _ & H)).
    apply bind_ok in H. destruct H as (st & H & _).
    destruct (step_of _ _ _ _ (S i) (keeps_down_row (length m)) H) as (a & b & E & La); [apply in_seq; lia|].
    unfold mi_down_row in E. apply bind_ok in E. destruct E as (s1 & E & _).
    destruct (step_of _ _ _ _ 0 (keeps_down_j (length m) (S i)) E) as (a2 & b2 & E2 & La2); [apply in_seq; lia|].
    unfold mi_down_j in E2. apply bind_ok in E2. destruct E2 as (el & _ & E2).
    destruct (step_of _ _ _ _ (length (nth (S i) m [])) (keeps_down_col (S i) 0 el) E2) as ([m3 i3] & b3 & E3 & La3); [apply in_seq; lia|].
    unfold mi_down_col in E3. cbn [Nat.ltb Nat.leb] in E3. apply bind_ok in E3. destruct E3 as (m4 & E3 & _).
    apply bind_ok in E3. destruct E3 as (? & _ & E3). apply bind_ok in E3. destruct E3 as (v & E3 & _).
    cbn [fst] in *. assert (Lm : lens m3 = lens m) by congruence.
    assert (Ll : length m3 = length m) by (unfold lens in Lm; rewrite <- (map_length (@length F) m3), Lm; apply map_length).
    unfold idx2 in E3. rewrite (idx_ok []) in E3 by lia. cbn [bind] in E3.
    rewrite idx_panic in E3 by (rewrite (lens_nth m3 m) by exact Lm; lia). discriminate.
  Qed.

  Lemma inverse_le (HF : is_field Fo) (m : list (list F)) : le (mat_inverse true m) (mat_inverse false m).
  Proof.
    intros B H. pose proof (inverse_returns_wide _ _ _ H) as Hw.
    assert (HZ : surplus_zero (length m) m).
    { intros i j Hi Hj. destruct (feqb (nth j (nth i m []) f0) f0) eqn:E; [apply HF in E; exact E|exfalso].
      rewrite (mat_inverse_surplus_debug (length m) m HF Hw) in H; [discriminate|]. intros Z. rewrite (Z i j Hi Hj) in E.
      assert (feqb f0 f0 = true) by (apply HF; reflexivity). congruence. }
    rewrite (mat_inverse_surplus false (length m) m HF Hw) by discriminate.
    rewrite <- (mat_inverse_profiles HF (length m) _ (narrow_dims _ _ Hw)).
    rewrite <- (mat_inverse_surplus true (length m) m HF Hw) by (intros _; exact HZ). exact H.
  Qed.

  (** ** everything else *)
  Lemma mat_vec_mul_le (m : list (list F)) x : le (mat_vec_mul true m x) (mat_vec_mul false m x).
  Proof. unfold mat_vec_mul. mono. Qed.
  Lemma ps_matmul_le x (m : list (list F)) : le (ps_matmul true x m) (ps_matmul false x m).
  Proof. unfold ps_matmul. mono. Qed.

  Local Opaque mat_inverse mat_vec_mul ps_matmul.
  Ltac mono2 HF := repeat first [apply (inverse_le HF) | apply mat_vec_mul_le | apply ps_matmul_le | progress mono].

  Lemma ps_new_le (HF : is_field Fo) t d rf rp (mds rc : list (list F)) :
    le (ps_new true t d rf rp mds rc) (ps_new false t d rf rp mds rc).
  Proof. unfold ps_new, ps_equivalent_matrices, ps_equivalent_round_constants, ps_eqmat_body. mono2 HF. Qed.
  Lemma p2_erc_le (HF : is_field Fo) (rc mi : list (list F)) rfb rp :
    le (p2_equivalent_round_constants true rc mi rfb rp) (p2_equivalent_round_constants false rc mi rfb rp).
  Proof. unfold p2_equivalent_round_constants. mono2 HF. Qed.
  Lemma ps_permutation_le (P : PoseidonParams F) x : le (ps_permutation true P x) (ps_permutation false P x).
  Proof.
    unfold ps_permutation, ps_full_round. repeat first [apply mat_vec_mul_le | apply ps_matmul_le | progress mono].
  Qed.
  Lemma ps_permutation_not_opt_le (P : PoseidonParams F) x : le (ps_permutation_not_opt true P x) (ps_permutation_not_opt false P x).
  Proof.
    unfold ps_permutation_not_opt, ps_full_round, ps_partial_round. repeat first [apply ps_matmul_le | progress mono].
  Qed.
  Lemma ps_compress_le (P : PoseidonParams F) x : le (ps_compress true P x) (ps_compress false P x).
  Proof. unfold ps_compress. do 2 (apply le_bind; [apply le_refl|intro]). apply le_bind; [apply ps_permutation_le|intro; apply le_refl]. Qed.

  Lemma p2_new_le t d rf rp diag (mi rc : list (list F)) : le (p2_new true t d rf rp diag mi rc) (p2_new false t d rf rp diag mi rc).
  Proof. unfold p2_new. mono. Qed.
  Lemma p2_permutation_le (P : Poseidon2Params F) x : le (p2_permutation true P x) (p2_permutation false P x).
  Proof. unfold p2_permutation. mono. Qed.
  Lemma p2_compress_le (P : Poseidon2Params F) x : le (p2_compress true P x) (p2_compress false P x).
  Proof. unfold p2_compress. do 2 (apply le_bind; [apply le_refl|intro]). apply le_bind; [apply p2_permutation_le|intro; apply le_refl]. Qed.

  Lemma gm_not_opt_le (P : GmimcParams F) x : le (gm_permutation_not_opt true P x) (gm_permutation_not_opt false P x).
  Proof. unfold gm_permutation_not_opt. mono. Qed.
  Lemma gm_permutation_le (P : GmimcParams F) x : le (gm_permutation true P x) (gm_permutation false P x).
  Proof. unfold gm_permutation. cbv zeta. destruct (gm_t P <? 8); [apply gm_not_opt_le|mono]. Qed.
  Lemma gm_compress_le (P : GmimcParams F) x : le (gm_compress true P x) (gm_compress false P x).
  Proof. unfold gm_compress. do 2 (apply le_bind; [apply le_refl|intro]). apply le_bind; [apply gm_permutation_le|intro; apply le_refl]. Qed.

  Lemma np_new_le fuel rng t d rf rp : le (np_new (F := F) true fuel rng t d rf rp) (np_new false fuel rng t d rf rp).
  Proof. unfold np_new. mono. Qed.
  Lemma np_permutation_le (P : NeptuneParams F) x : le (np_permutation true P x) (np_permutation false P x).
  Proof. unfold np_permutation. mono. Qed.
  Lemma np_compress_le (P : NeptuneParams F) x : le (np_compress true P x) (np_compress false P x).
  Proof. unfold np_compress. do 2 (apply le_bind; [apply le_refl|intro]). apply le_bind; [apply np_permutation_le|intro; apply le_refl]. Qed.
End Refine.

(** ** Merkle trees; the compression functions may differ between the builds in the same way *)
Section Merkle.
  Context {A : Type}.

  Lemma fp_pow_le fuel input n r : le (fp_pow_loop true fuel input n r) (fp_pow_loop false fuel input n r).
  Proof. revert r. induction fuel as [|f IH]; intros r; cbn [fp_pow_loop]; [apply le_refl|]. repeat first [apply IH | progress mono]. Qed.
  Lemma fp_bound_le fuel b : le (fp_bound_loop true fuel b) (fp_bound_loop false fuel b).
  Proof. revert b. induction fuel as [|f IH]; intros b; cbn [fp_bound_loop]; [apply le_refl|]. repeat first [apply IH | progress mono]. Qed.
  Lemma fp_levels_le fuel (c1 c2 : list A -> res A) nodes : (forall l, le (c1 l) (c2 l)) ->
    le (fp_levels fuel c1 nodes) (fp_levels fuel c2 nodes).
  Proof.
    intros H. revert nodes. induction fuel as [|f IH]; intros b; cbn [fp_levels]; [apply le_refl|].
    unfold fp_level. repeat first [apply IH | apply H | progress mono].
  Qed.
  Lemma fp_accumulate_le fuel (c1 c2 : list A -> res A) set : (forall l, le (c1 l) (c2 l)) ->
    le (fp_accumulate true fuel c1 set) (fp_accumulate false fuel c2 set).
  Proof.
    intros H. unfold fp_accumulate, fp_round_up_pow_n, fp_pad.
    repeat first [apply fp_pow_le | apply fp_bound_le | apply fp_levels_le; exact H | progress mono].
  Qed.

  Lemma orchard_pow_le fuel input n r : le (orchard_pow_loop true fuel input n r) (orchard_pow_loop false fuel input n r).
  Proof. revert r. induction fuel as [|f IH]; intros r; cbn [orchard_pow_loop]; [apply le_refl|]. repeat first [apply IH | progress mono]. Qed.
  Lemma orchard_bound_le fuel b : le (orchard_bound_loop true fuel b) (orchard_bound_loop false fuel b).
  Proof. revert b. induction fuel as [|f IH]; intros b; cbn [orchard_bound_loop]; [apply le_refl|]. repeat first [apply IH | progress mono]. Qed.
  Lemma sapling_pow_le fuel input n r : le (sapling_pow_loop true fuel input n r) (sapling_pow_loop false fuel input n r).
  Proof. revert r. induction fuel as [|f IH]; intros r; cbn [sapling_pow_loop]; [apply le_refl|]. repeat first [apply IH | progress mono]. Qed.
  Lemma sapling_bound_le fuel b : le (sapling_bound_loop true fuel b) (sapling_bound_loop false fuel b).
  Proof. revert b. induction fuel as [|f IH]; intros b; cbn [sapling_bound_loop]; [apply le_refl|]. repeat first [apply IH | progress mono]. Qed.
  Lemma orchard_levels_le fuel (c : nat -> A -> A -> res A) lv nodes :
    le (orchard_levels true fuel c lv nodes) (orchard_levels false fuel c lv nodes).
  Proof.
    revert lv nodes. induction fuel as [|f IH]; intros lv b; cbn [orchard_levels]; [apply le_refl|].
    repeat first [apply IH | progress mono].
  Qed.
  Lemma sapling_levels_le fuel (c : nat -> A -> A -> res A) lv nodes :
    le (sapling_levels true fuel c lv nodes) (sapling_levels false fuel c lv nodes).
  Proof.
    revert lv nodes. induction fuel as [|f IH]; intros lv b; cbn [sapling_levels]; [apply le_refl|].
    repeat first [apply IH | progress mono].
  Qed.
  Lemma orchard_accumulate_le fuel (c : nat -> A -> A -> res A) set :
    le (orchard_accumulate true fuel c set) (orchard_accumulate false fuel c set).
  Proof.
    unfold orchard_accumulate, orchard_round_up_pow_n, orchard_pad.
    repeat first [apply orchard_pow_le | apply orchard_bound_le | apply orchard_levels_le | progress mono].
  Qed.
  Lemma sapling_accumulate_le fuel (c : nat -> A -> A -> res A) set :
    le (sapling_accumulate true fuel c set) (sapling_accumulate false fuel c set).
  Proof.
    unfold sapling_accumulate, sapling_round_up_pow_n, sapling_pad.
    repeat first [apply sapling_pow_le | apply sapling_bound_le | apply sapling_levels_le | progress mono].
  Qed.
End Merkle.

Section F2.
  Context {B H : Type} (h_update : H -> list B -> H) (h_finalize_reset : H -> list B * H).

  Lemma f2_pow_le fuel input n r : le (f2_pow_loop true fuel input n r) (f2_pow_loop false fuel input n r).
  Proof. revert r. induction fuel as [|f IH]; intros r; cbn [f2_pow_loop]; [apply le_refl|]. repeat first [apply IH | progress mono]. Qed.
  Lemma f2_bound_le fuel b : le (f2_bound_loop true fuel b) (f2_bound_loop false fuel b).
  Proof. revert b. induction fuel as [|f IH]; intros b; cbn [f2_bound_loop]; [apply le_refl|]. repeat first [apply IH | progress mono]. Qed.
  Lemma sbind_lift_le {A C} (r1 r2 : res A) (k1 k2 : A -> st H C) h d h' :
    le r1 r2 -> (forall a, k1 a h = (Ok d, h') -> k2 a h = (Ok d, h')) ->
    sbind (slift r1) k1 h = (Ok d, h') -> sbind (slift r2) k2 h = (Ok d, h').
  Proof.
    intros L K. unfold sbind, slift. destruct r1 as [a| |]; try discriminate. rewrite (L a eq_refl). apply K.
  Qed.
  Lemma f2_accumulate_le fuel set h d h' :
    f2_accumulate h_update h_finalize_reset true fuel set h = (Ok d, h') ->
    f2_accumulate h_update h_finalize_reset false fuel set h = (Ok d, h').
  Proof.
    unfold f2_accumulate. apply sbind_lift_le; [unfold f2_round_up_pow_n; repeat first [apply f2_pow_le | progress mono]|]. intros b.
    apply sbind_lift_le; [apply f2_bound_le|]. intros b2.
    apply sbind_lift_le; [unfold f2_pad; mono|]. intros nodes E. exact E.
  Qed.
End F2.
