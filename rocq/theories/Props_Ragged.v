(** * Matrices whose rows have different lengths: C96 *)
From Verif Require Import Base Field Spec ModelUtils ModelPoseidon2 ModelPoseidon SpecRagged F13 Props_Matrix Props_Poseidon.
From Verif Require ProofRagged.

(** ** the matrix inverse reads only the square part; debug builds insist that the rest is zero *)
Theorem C96_inverse_square_part :
  forall F (Fo : FOps F), is_field Fo ->
  forall dbg n (m : list (list F)), wide n m -> (dbg = true -> surplus_zero n m) ->
    mat_inverse dbg m = mat_inverse dbg (narrow n m).
Proof. intros F Fo HF dbg n m. exact (ProofRagged.mat_inverse_surplus dbg n m HF). Qed.
Print Assumptions C96_inverse_square_part.

Theorem C96_inverse_debug_rejects :
  forall F (Fo : FOps F), is_field Fo ->
  forall n (m : list (list F)), wide n m -> ~ surplus_zero n m -> mat_inverse true m = Panic.
Proof. intros F Fo HF n m. exact (ProofRagged.mat_inverse_surplus_debug n m HF). Qed.
Print Assumptions C96_inverse_debug_rejects.

(** ** a row shorter than the first one: no parameters, whatever the other arguments *)
Theorem C96_short_row_panics :
  forall F (Fo : FOps F) dbg t d rf rp (mds rc : list (list F)) i,
    i < length mds -> length (nth i mds []) < length (nth 0 mds []) ->
    ps_new dbg t d rf rp mds rc = Panic.
Proof. exact @ProofRagged.new_short. Qed.
Print Assumptions C96_short_row_panics.

(** ** exactly which ragged matrices are accepted *)
Theorem C96_accepted_iff :
  forall F (Fo : FOps F), is_field Fo ->
  forall dbg t d rf rp (mds rc : list (list F)),
    (exists P, ps_new dbg t d rf rp mds rc = Ok P) <->
    wide t mds /\ (dbg = true -> surplus_zero t mds) /\
    exists P', ps_new dbg t d rf rp (narrow t mds) rc = Ok P'.
Proof.
  intros F Fo HF dbg t d rf rp mds rc. split.
  - intros [P E]. destruct (ProofRagged.accepted_form _ _ _ _ _ _ _ _ HF E) as [Hw HZ].
    split; [exact Hw|]. split; [exact HZ|].
    pose proof (ProofRagged.surplus_ignored dbg t d rf rp mds rc HF Hw HZ) as H. rewrite E in H.
    destruct (ps_new dbg t d rf rp (narrow t mds) rc) as [P'| |]; [eauto|contradiction|contradiction].
  - intros (Hw & HZ & P' & E). pose proof (ProofRagged.surplus_ignored dbg t d rf rp mds rc HF Hw HZ) as H. rewrite E in H.
    destruct (ps_new dbg t d rf rp mds rc) as [P| |]; [eauto|contradiction|contradiction].
Qed.
Print Assumptions C96_accepted_iff.

(** ** the permutations of an accepted ragged matrix are those of its square part *)
Theorem C96_permutations :
  forall F (Fo : FOps F), is_field Fo ->
  forall dbg t d rf rp (mds rc : list (list F)) P,
    ps_new dbg t d rf rp mds rc = Ok P ->
    exists P', ps_new dbg t d rf rp (narrow t mds) rc = Ok P' /\
      forall x, ps_permutation dbg P x = ps_permutation dbg P' x /\
                ps_permutation_not_opt dbg P x = ps_permutation_not_opt dbg P' x.
Proof.
  intros F Fo HF dbg t d rf rp mds rc P E. destruct (ProofRagged.accepted_form _ _ _ _ _ _ _ _ HF E) as [Hw HZ].
  pose proof (ProofRagged.surplus_ignored dbg t d rf rp mds rc HF Hw HZ) as H. rewrite E in H.
  destruct (ps_new dbg t d rf rp (narrow t mds) rc) as [P'| |]; [eauto|contradiction|contradiction].
Qed.
Print Assumptions C96_permutations.

(** ** C14 without the condition on the shape of the matrix *)
Theorem C96_optimised_equals_unoptimised :
  forall F (Fo : FOps F), is_field Fo ->
  forall dbg t d rf rp (mds rc : list (list F)) P x,
    ps_new dbg t d rf rp mds rc = Ok P ->
    (N.of_nat rf + N.of_nat rp < usize_mod)%N ->
    (forall k, k < rp -> t <= length (nth (rf / 2 + k) rc [])) ->
    ps_permutation dbg P x = ps_permutation_not_opt dbg P x.
Proof. intros F Fo HF dbg t d rf rp mds rc P x. exact (ProofRagged.opt_eq_any dbg t d rf rp mds rc P x HF). Qed.
Print Assumptions C96_optimised_equals_unoptimised.

(** in debug builds every accepted parameter set has equal permutations, without any condition *)
Theorem C96_every_accepted_debug :
  forall F (Fo : FOps F), is_field Fo ->
  forall t d rf rp (mds rc : list (list F)) P x,
    ps_new true t d rf rp mds rc = Ok P ->
    ps_permutation true P x = ps_permutation_not_opt true P x.
Proof. intros F Fo HF t d rf rp mds rc P x. exact (ProofRagged.opt_eq_any_debug t d rf rp mds rc P x HF). Qed.
Print Assumptions C96_every_accepted_debug.

(** ** Examples: two surplus entries, one of them not zero *)
Definition ragged : list (list F13) := m13 [[2;3;1];[5;7;8;6];[1;1;4;0;0]]%Z.
Definition ragged0 : list (list F13) := m13 [[2;3;1];[5;7;8;0];[1;1;4;0;0]]%Z.
Definition short_row : list (list F13) := m13 [[2;3;1];[5;7];[1;1;4]]%Z.

Example C96_ex_wide : wide 3 ragged /\ ~ surplus_zero 3 ragged /\ wide 3 ragged0 /\ surplus_zero 3 ragged0 /\
  narrow 3 ragged = ex_mds /\ narrow 3 ragged0 = ex_mds.
Proof.
  split; [|split; [|split; [|split; [|split; reflexivity]]]].
  - split; [reflexivity|]. split; [reflexivity|]. intros i Hi. destruct i as [|[|[|]]]; cbn; lia.
  - intros H. specialize (H 1 3 ltac:(cbn; lia) ltac:(cbn; lia)). apply (f_equal (fun x => feqb x f0)) in H. vm_compute in H. discriminate.
  - split; [reflexivity|]. split; [reflexivity|]. intros i Hi. destruct i as [|[|[|]]]; cbn; lia.
  - intros i j Hi Hj. cbn in Hi. destruct i as [|[|[|]]]; cbn in Hj; try lia.
    + destruct j as [|[|[|[|]]]]; try lia. reflexivity.
    + destruct j as [|[|[|[|[|]]]]]; try lia; reflexivity.
Qed.

Example C96_ex_new :
  (exists P, ps_new (Fo := F13_ops) false 3 5 2 3 ragged ex_rc = Ok P) /\
  ps_new (Fo := F13_ops) true 3 5 2 3 ragged ex_rc = Panic /\
  (exists P, ps_new (Fo := F13_ops) true 3 5 2 3 ragged0 ex_rc = Ok P) /\
  ps_new (Fo := F13_ops) false 3 5 2 3 short_row ex_rc = Panic /\
  length (nth 1 short_row []) < length (nth 0 short_row []).
Proof.
  split; [eexists; vm_compute; reflexivity|]. split; [vm_compute; reflexivity|].
  split; [eexists; vm_compute; reflexivity|]. split; [vm_compute; reflexivity|]. cbn. lia.
Qed.
