(** * SpecPoseidon2: reference description of Poseidon2, written from the matrices.

    Independent of the model: matrices entry by entry, x^d as a power, rounds as a fold. *)
From Verif Require Import Base Field Spec.

Section SpecP2.
  Context {F : Type} {Fo : FOps F}.

  (** the 4 x 4 matrix of the external layer *)
  Definition M4 : mat := fun i j =>
    fnat (nth j (nth i [[5;7;1;3];[4;6;1;1];[1;3;5;7];[1;1;4;6]] []) 0).

  (** external matrix: circ(2,1), circ(2,1,1), M4, and circ(2 M4, M4, ..., M4) *)
  Definition ext_matrix (t : nat) : mat := fun i j =>
    if t <? 4 then fnat (if i =? j then 2 else 1)
    else if t =? 4 then M4 i j
    else fmul (fnat (if i / 4 =? j / 4 then 2 else 1)) (M4 (i mod 4) (j mod 4)).

  (** internal matrix: fixed for t = 2, 3; all-ones plus the supplied diagonal otherwise *)
  Definition int_matrix (t : nat) (diag : list F) : mat := fun i j =>
    if t <? 4 then fnat (if i =? j then (if i =? t - 1 then 3 else 2) else 1)
    else if i =? j then fadd (nth i diag f0) f1 else f1.

  (** one full round: add constants, x^d everywhere, external matrix *)
  Definition p2_ref_full (t d : nat) (c : list F) (x : list F) : list F :=
    mat_apply t t (ext_matrix t)
      (map (fun i => fpow (fadd (nth i x f0) (nth i c f0)) d) (seq 0 t)).

  (** one partial round: constant and x^d on element 0 only, internal matrix *)
  Definition p2_ref_partial (t d : nat) (diag c : list F) (x : list F) : list F :=
    mat_apply t t (int_matrix t diag)
      (map (fun i => if i =? 0 then fpow (fadd (nth 0 x f0) (nth 0 c f0)) d else nth i x f0)
           (seq 0 t)).

  (** the permutation: initial external matrix, rf/2 full, rp partial, rf/2 full rounds *)
  Definition p2_ref (t d rf rp : nat) (diag : list F) (rc : list (list F)) (x : list F) : list F :=
    let full s r := p2_ref_full t d (nth r rc []) s in
    let part s r := p2_ref_partial t d diag (nth r rc []) s in
    let s := mat_apply t t (ext_matrix t) x in
    let s := fold_left full (seq 0 (rf / 2)) s in
    let s := fold_left part (seq (rf / 2) rp) s in
    fold_left full (seq (rf / 2 + rp) (rf / 2)) s.

  (** characteristics in which the external matrix is singular *)
  Definition ext_bad_primes (t : nat) : list Z :=
    match t with
    | 2 => [3%Z] | 3 => [2%Z] | 4 => [2%Z] | 8 => [2%Z; 3%Z] | 12 => [2%Z] | 16 => [2%Z; 5%Z]
    | 20 => [2%Z; 3%Z] | 24 => [2%Z; 7%Z] | _ => []
    end.

  Definition p2_width (t : nat) : Prop := In t [2; 3; 4; 8; 12; 16; 20; 24].
  Definition sbox_degree (d : nat) : Prop := In d [3; 5; 7].

  (** supplied data are large enough for the rounds that use them *)
  Definition p2_data_ok (t rf rp : nat) (diag : list F) (rc : list (list F)) : Prop :=
    (forall r, r < rf / 2 \/ rf / 2 + rp <= r < rf / 2 + rp + rf / 2 -> t <= length (nth r rc [])) /\
    (forall r, rf / 2 <= r < rf / 2 + rp -> 1 <= length (nth r rc [])) /\
    (4 <= t -> 0 < rp -> t <= length diag).

  (** the constants actually used agree *)
  Definition p2_agree (t rf rp : nat) (diag diag' : list F) (rc rc' : list (list F)) : Prop :=
    (forall r i, r < rf / 2 \/ rf / 2 + rp <= r < rf / 2 + rp + rf / 2 -> i < t ->
       nth i (nth r rc []) f0 = nth i (nth r rc' []) f0) /\
    (forall r, rf / 2 <= r < rf / 2 + rp -> nth 0 (nth r rc []) f0 = nth 0 (nth r rc' []) f0) /\
    (4 <= t -> forall i, i < t -> nth i diag f0 = nth i diag' f0).
End SpecP2.

(** characteristics in which the small external matrices are not MDS *)
Definition mds_bad_primes (t : nat) : list Z :=
  match t with
  | 2 | 3 => [2; 3]%Z | 4 => [2; 3; 5; 7; 11; 13; 19; 23]%Z | _ => []
  end.
