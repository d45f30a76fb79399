(** * SpecInstances: what is claimed of the shipped constants *)
From Verif Require Import Base Field Spec SpecPoseidon2 ModelInstances.

(** all entries are canonical representatives modulo p *)
Definition canonical_vec (p : Z) (v : list Z) : Prop := forall z, In z v -> (0 <= z < p)%Z.
Definition canonical_mat (p : Z) (m : list (list Z)) : Prop := forall v, In v m -> canonical_vec p v.
(** r rows of c entries *)
Definition shape (r c : nat) (m : list (list Z)) : Prop := length m = r /\ forall v, In v m -> length v = c.

Definition zentry (m : list (list Z)) (i j : nat) : Z := nth j (nth i m []) 0%Z.

Record p2_consistent (I : p2_instance) : Prop := {
  pc_rc_shape : shape (qi_rf I + qi_rp I) (qi_t I) (qi_rc I);
  pc_mat_shape : shape (qi_t I) (qi_t I) (qi_mat I);
  pc_diag_length : length (qi_diag I) = qi_t I;
  pc_rc_canonical : canonical_mat (qi_p I) (qi_rc I);
  pc_mat_canonical : canonical_mat (qi_p I) (qi_mat I);
  pc_diag_canonical : canonical_vec (qi_p I) (qi_diag I);
  (* MAT_INTERNAL = all-ones + diag(MAT_DIAG_M_1) *)
  pc_internal : forall i j, i < qi_t I -> j < qi_t I ->
    zentry (qi_mat I) i j = ((if (i =? j)%nat then 1 + nth i (qi_diag I) 0 else 1) mod qi_p I)%Z;
  (* the hard-coded diagonals *)
  pc_diag2 : qi_t I = 2 -> qi_diag I = [1; 2]%Z;
  pc_diag3 : qi_t I = 3 -> qi_diag I = [1; 1; 2]%Z;
  (* partial rounds use element 0 only *)
  pc_partial : forall r i, qi_rf I / 2 <= r < qi_rf I / 2 + qi_rp I -> 1 <= i < qi_t I -> zentry (qi_rc I) r i = 0%Z
}.

Record ps_consistent (I : ps_instance) : Prop := {
  sc_rc_shape : shape (si_rf I + si_rp I) (si_t I) (si_rc I);
  sc_mds_shape : shape (si_t I) (si_t I) (si_mds I);
  sc_rc_canonical : canonical_mat (si_p I) (si_rc I);
  sc_mds_canonical : canonical_mat (si_p I) (si_mds I)
}.

(** the arguments satisfy the requirements of [new] and of the S-box *)
Record good_arguments (p : Z) (t d rf rp : nat) : Prop := {
  ga_degree : sbox_degree d;
  ga_even : rf mod 2 = 0;
  ga_width : p2_width t;
  ga_partial : 1 <= rp;
  ga_coprime : Z.gcd (Z.of_nat d) (p - 1) = 1%Z;
  ga_overflow : (N.of_nat rf + N.of_nat rp < usize_mod)%N
}.
