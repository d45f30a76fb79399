(** * ProofAccept2: when mat_inverse and the equivalent round constants of Poseidon2 return, for any shapes *)
From Verif Require Import Base Field Spec LinAlg LoopLemmas MatLoops ModelUtils ModelPoseidon2 ModelPoseidon
  SpecPoseidon SpecPoseidon2 ProofMatInverse ProofMatHelpers ProofEquivRC ProofTotal SpecRagged ProofRagged SpecAccept ProofAccept ProofRefine.

Section Accept2.
  Context {F : Type} {Fo : FOps F} (HF : is_field Fo).

  Lemma inverse_form dbg (m B : list (list F)) : mat_inverse dbg m = Ok B ->
    wide (length m) m /\ (dbg = true -> surplus_zero (length m) m).
  Proof.
    intros H. pose proof (inverse_returns_wide _ _ _ H) as Hw. split; [exact Hw|]. intros ->.
    intros i j Hi Hj. destruct (feqb (nth j (nth i m []) f0) f0) eqn:E; [apply HF in E; exact E|exfalso].
    rewrite (mat_inverse_surplus_debug (length m) m HF Hw) in H; [discriminate|].
    intros HZ. specialize (HZ i j Hi Hj). rewrite HZ in E.
    assert (E' : feqb f0 f0 = true) by (apply HF; reflexivity). congruence.
  Qed.

  Lemma inverse_any dbg (m : list (list F)) :
    (exists B, mat_inverse dbg m = Ok B) <->
    1 <= length m /\ wide (length m) m /\ (dbg = true -> surplus_zero (length m) m) /\
    leading_blocks (length m) (entry (narrow (length m) m)).
  Proof.
    split.
    - intros [B H]. destruct (inverse_form _ _ _ H) as [Hw HZ].
      assert (Hn : 1 <= length m) by (destruct m; [discriminate H|cbn; lia]).
      split; [exact Hn|]. split; [exact Hw|]. split; [exact HZ|].
      rewrite (mat_inverse_surplus dbg _ m HF Hw HZ) in H.
      exact (proj1 (proj1 (mat_inverse_success HF dbg _ _ Hn (narrow_dims _ _ Hw))) (ex_intro _ _ H)).
    - intros (Hn & Hw & HZ & HL). rewrite (mat_inverse_surplus dbg _ m HF Hw HZ).
      exact (proj2 (proj1 (mat_inverse_success HF dbg _ _ Hn (narrow_dims _ _ Hw))) HL).
  Qed.

  Lemma inverse_panics dbg (m : list (list F)) : (exists B, mat_inverse dbg m = Ok B) \/ mat_inverse dbg m = Panic.
  Proof. apply ends_cases. apply mat_inverse_ends. Qed.

  Local Opaque mat_inverse.
  Lemma p2_erc_square dbg t (rc mi : list (list F)) rfb rp :
    dims t t mi -> 2 <= t -> (N.of_nat rfb + N.of_nat rp + 1 < usize_mod)%N ->
    ((exists opt, p2_equivalent_round_constants dbg rc mi rfb rp = Ok opt) <->
      1 <= rp /\ leading_blocks t (entry mi) /\ constants_shape dbg t rfb rp rc).
  Proof.
    intros Hd Ht Hov. split.
    - intros [opt H]. assert (Hp : 1 <= rp).
      { destruct (p2_equivalent_rc_correct HF dbg t 3 rc mi rfb rp opt [] Hd Ht Hov H) as [G _]. exact G. }
      split; [exact Hp|]. unfold p2_equivalent_round_constants in H.
      rewrite uadd_ok in H by lia. cbn [bind] in H. apply bind_ok in H. destruct H as (inv & Einv & H).
      rewrite uadd_ok in H by lia. cbn [bind] in H. rewrite usub_ok in H by lia. cbn [bind] in H.
      apply bind_ok in H. destruct H as (tmp & Et & H). rewrite usub_ok in H by lia. cbn [bind] in H.
      apply bind_ok in H. destruct H as (r & EL & _).
      split; [exact (proj1 (proj1 (mat_inverse_success HF dbg t mi ltac:(lia) Hd)) (ex_intro _ _ Einv))|].
      destruct (mat_inverse_sound HF _ _ _ _ Hd Einv) as [Hdi _].
      assert (Hl : rfb + rp - 1 < length rc).
      { unfold idx in Et. destruct (nth_error rc (rfb + rp - 1)) eqn:E; [|discriminate]. apply nth_error_Some. congruence. }
      rewrite (idx_ok []) in Et by exact Hl. injection Et as <-.
      match type of EL with for_range_rev 0 _ ?b _ = _ => change b with (erc_body dbg inv rc rfb) in EL end.
      apply shape_rows; [exact Hp|]. split; [|exact Hl].
      apply (erc_loop_rows HF dbg t inv rc rfb rp _ _ Hdi Ht ltac:(lia) Hp EL).
    - intros (Hp & HL & HC). apply shape_rows in HC; [|exact Hp]. destruct HC as [HR Hl].
      destruct (proj2 (proj1 (mat_inverse_success HF dbg t mi ltac:(lia) Hd)) HL) as [inv Einv].
      destruct (mat_inverse_sound HF _ _ _ _ Hd Einv) as [Hdi HI].
      unfold p2_equivalent_round_constants. rewrite uadd_ok by lia. cbn [bind]. rewrite Einv. cbn [bind].
      rewrite uadd_ok by lia. cbn [bind]. rewrite usub_ok by lia. cbn [bind].
      rewrite (idx_ok []) by exact Hl. cbn [bind]. rewrite usub_ok by lia. cbn [bind].
      match goal with |- exists o, bind (for_range_rev 0 _ ?b ?s) _ = _ => change b with (erc_body dbg inv rc rfb) end.
      destruct (erc_loop HF t (entry inv) rc rfb rp dbg inv Hdi ltac:(reflexivity) ltac:(lia) ltac:(lia)
                  (repeat [] (rp + 1)) HR Hp ltac:(rewrite repeat_length; lia)) as [o [EL [Ho1 _]]].
      rewrite EL. cbn [bind]. rewrite repeat_length in Ho1. rewrite upd_ok by lia. cbn [bind].
      rewrite (idx_ok []) by (rewrite set_nth_length; lia). cbn [bind].
      rewrite upd_ok by (rewrite set_nth_length; lia). eexists. reflexivity.
  Qed.

  Lemma p2_erc_any dbg (rc mi : list (list F)) rfb rp :
    2 <= length mi -> (N.of_nat rfb + N.of_nat rp + 1 < usize_mod)%N ->
    ((exists opt, p2_equivalent_round_constants dbg rc mi rfb rp = Ok opt) <->
      1 <= rp /\ wide (length mi) mi /\ (dbg = true -> surplus_zero (length mi) mi) /\
      leading_blocks (length mi) (entry (narrow (length mi) mi)) /\ constants_shape dbg (length mi) rfb rp rc).
  Proof.
    intros Ht Hov.
    assert (EE : wide (length mi) mi -> (dbg = true -> surplus_zero (length mi) mi) ->
      p2_equivalent_round_constants dbg rc mi rfb rp = p2_equivalent_round_constants dbg rc (narrow (length mi) mi) rfb rp).
    { intros Hw HZ. unfold p2_equivalent_round_constants. rewrite <- (mat_inverse_surplus dbg _ mi HF Hw HZ). reflexivity. }
    split.
    - intros [opt H]. assert (HI : exists B, mat_inverse dbg mi = Ok B).
      { unfold p2_equivalent_round_constants in H. rewrite uadd_ok in H by lia. cbn [bind] in H.
        apply bind_ok in H. destruct H as (inv & Einv & _). eauto. }
      destruct HI as [B HB]. destruct (inverse_form _ _ _ HB) as [Hw HZ]. rewrite (EE Hw HZ) in H.
      destruct (proj1 (p2_erc_square dbg _ rc _ rfb rp (narrow_dims _ _ Hw) Ht Hov) (ex_intro _ _ H)) as (A & B1 & C). auto.
    - intros (Hp & Hw & HZ & HL & HC). rewrite (EE Hw HZ). apply (p2_erc_square dbg _ rc _ rfb rp (narrow_dims _ _ Hw) Ht Hov). auto.
  Qed.

  Lemma p2_erc_panics dbg (rc mi : list (list F)) rfb rp :
    (exists opt, p2_equivalent_round_constants dbg rc mi rfb rp = Ok opt) \/ p2_equivalent_round_constants dbg rc mi rfb rp = Panic.
  Proof.
    apply ends_cases. unfold p2_equivalent_round_constants.
    apply ends_bind; [apply ends_uadd|intros n]. cbn zeta. apply ends_bind; [apply mat_inverse_ends|intros inv].
    unfold mat_vec_mul. ends.
  Qed.
End Accept2.
