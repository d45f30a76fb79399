(** * mat_inverse and the equivalent round constants of Poseidon2, for arguments of any shape: C101 *)
From Verif Require Import Base Field Spec ModelUtils ModelPoseidon2 ModelPoseidon
  SpecPoseidon SpecRagged SpecAccept F13 Props_Matrix Props_Poseidon Props_Ragged Props_Accept.
From Verif Require ProofAccept2.

(** ** C101: mat_inverse without a condition on the shape of its argument *)
Theorem C101_inverse_success_exactly :
  forall F (Fo : FOps F), is_field Fo ->
  forall dbg (m : list (list F)),
    (exists B, mat_inverse dbg m = Ok B) <->
    1 <= length m /\ wide (length m) m /\ (dbg = true -> surplus_zero (length m) m) /\
    leading_blocks (length m) (entry (narrow (length m) m)).
Proof. intros F Fo HF dbg m. exact (ProofAccept2.inverse_any HF dbg m). Qed.
Print Assumptions C101_inverse_success_exactly.

Theorem C101_inverse_otherwise_panics :
  forall F (Fo : FOps F) dbg (m : list (list F)),
    (exists B, mat_inverse dbg m = Ok B) \/ mat_inverse dbg m = Panic.
Proof. exact @ProofAccept2.inverse_panics. Qed.
Print Assumptions C101_inverse_otherwise_panics.

(** ** the equivalent round constants of Poseidon2 *)
Theorem C101_constants_success_exactly :
  forall F (Fo : FOps F), is_field Fo ->
  forall dbg (rc mi : list (list F)) rfb rp,
    2 <= length mi -> (N.of_nat rfb + N.of_nat rp + 1 < usize_mod)%N ->
    ((exists opt, p2_equivalent_round_constants dbg rc mi rfb rp = Ok opt) <->
      1 <= rp /\ wide (length mi) mi /\ (dbg = true -> surplus_zero (length mi) mi) /\
      leading_blocks (length mi) (entry (narrow (length mi) mi)) /\ constants_shape dbg (length mi) rfb rp rc).
Proof. intros F Fo HF dbg rc mi rfb rp. exact (ProofAccept2.p2_erc_any HF dbg rc mi rfb rp). Qed.
Print Assumptions C101_constants_success_exactly.

Theorem C101_constants_otherwise_panics :
  forall F (Fo : FOps F) dbg (rc mi : list (list F)) rfb rp,
    (exists opt, p2_equivalent_round_constants dbg rc mi rfb rp = Ok opt) \/
    p2_equivalent_round_constants dbg rc mi rfb rp = Panic.
Proof. exact @ProofAccept2.p2_erc_panics. Qed.
Print Assumptions C101_constants_otherwise_panics.

(** ** Examples: the ragged matrices of [Props_Ragged] and the odd constants of [Props_Accept] *)
Example C101_ex_inverse :
  (exists B, mat_inverse (Fo := F13_ops) false ragged = Ok B) /\ mat_inverse (Fo := F13_ops) true ragged = Panic /\
  (exists B, mat_inverse (Fo := F13_ops) true ragged0 = Ok B) /\ mat_inverse (Fo := F13_ops) false short_row = Panic /\
  mat_inverse (Fo := F13_ops) false [] = Panic.
Proof.
  split; [eexists; vm_compute; reflexivity|]. split; [vm_compute; reflexivity|].
  split; [eexists; vm_compute; reflexivity|]. split; vm_compute; reflexivity.
Qed.

Example C101_ex_constants :
  (exists o, p2_equivalent_round_constants (Fo := F13_ops) false odd_rc ragged 1 3 = Ok o) /\
  p2_equivalent_round_constants (Fo := F13_ops) true odd_rc ragged0 1 3 = Panic /\
  (exists o, p2_equivalent_round_constants (Fo := F13_ops) true even_rc ragged0 1 3 = Ok o) /\
  p2_equivalent_round_constants (Fo := F13_ops) true even_rc ragged0 1 0 = Panic /\
  p2_equivalent_round_constants (Fo := F13_ops) false even_rc ragged0 1 0 = Panic /\
  2 <= length ragged.
Proof.
  split; [eexists; vm_compute; reflexivity|]. split; [vm_compute; reflexivity|].
  split; [eexists; vm_compute; reflexivity|]. split; [vm_compute; reflexivity|].
  split; [|cbn; lia].
  destruct (C101_constants_otherwise_panics F13 F13_ops false even_rc ragged0 1 0) as [H|H]; [exfalso|exact H].
  apply (C101_constants_success_exactly F13 F13_ops F13_is_field) in H; [lia|cbn; lia|vm_compute; reflexivity].
Qed.
