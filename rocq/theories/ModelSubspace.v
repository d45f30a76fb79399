(** * ModelSubspace: the checks on linear layers in poseidon2_rust_params.sage

    A check that returns True is a proposition that holds.  The functions of the Sage library are modelled by
    what they compute: [minimal_polynomial], [degree], [is_irreducible] by the notions of [SpecMinPoly], a
    subspace by its set of vectors (lists of length t), a kernel, an eigenspace and an image by their defining
    equations.  "dimension = t" means that every vector belongs to the space; "dimension <= delta" for a space
    that contains the previous one means that nothing was added. *)
From Verif Require Import Base Field Spec SpecPoseidon SpecMinPoly.
Local Open Scope nat_scope.

Section ModelSubspace.
  Context {F : Type} {Fo : FOps F}.

  (** poseidon2_rust_params.sage:387 the condition of the loop *)
  Definition minpoly_fulfilled (t : nat) (M : mat) : Prop :=
    exists g, is_minimal_polynomial t M g /\ length g = t /\ is_irreducible g.

  (** poseidon2_rust_params.sage:386-390 the loop, with n iterations left *)
  Fixpoint minpoly_loop (t : nat) (M M_temp : mat) (n : nat) : Prop :=
    match n with O => True | S m => minpoly_fulfilled t M_temp /\ minpoly_loop t M (mat_mul t M M_temp) m end.

  (** poseidon2_rust_params.sage:382-391 check_minpoly_condition *)
  Definition check_minpoly_condition (t : nat) (M : mat) : Prop := minpoly_loop t M M (2 * t).

  (** matrix.circulant(v): entry (i, j) is v[(j - i) mod t], as in poseidon2_rust_params.sage:275, 277 and 445 *)
  Definition matrix_circulant (v : list F) : list (list F) :=
    let t := length v in map (fun i => map (fun j => nth ((j + t - i) mod t) v f0) (seq 0 t)) (seq 0 t).
  (** matrix.diagonal(d), as in poseidon2_rust_params.sage:446 *)
  Definition matrix_diagonal (d : list F) : list (list F) :=
    let t := length d in map (fun i => map (fun j => if i =? j then nth i d f0 else f0) (seq 0 t)) (seq 0 t).

  (** a subspace of V = VectorSpace(F, t) *)
  Definition space := list F -> Prop.
  Definition same_space (S T : space) : Prop := forall v, S v <-> T v.
  (** V.subspace(X): the linear combinations of the vectors in X *)
  Inductive span (t : nat) (X : space) : space :=
  | span_zero : span t X (repeat f0 t)
  | span_more a x v : X x -> span t X v -> span t X (map (fun i => fadd (fmul a (nth i x f0)) (nth i v f0)) (seq 0 t)).
  (** V.basis()[i] *)
  Definition basis_vector (t i : nat) : list F := map (fun k => if k =? i then f1 else f0) (seq 0 t).

  (** poseidon2_rust_params.sage:228-249 generate_vectorspace, with s = 1; M_round is indexed from 0 *)
  Definition generate_vectorspace (round_num : nat) (M_round : nat -> mat) (t : nat) : space :=
    match round_num with
    | 0 => fun x => length x = t
    | 1 => span t (fun x => exists i, 1 <= i < t /\ x = basis_vector t i)
    | _ => fun x => length x = t /\ nth 0 x f0 = f0 /\
        forall i, i < round_num - 1 -> sumn (t - 1) (fun j => fmul (M_round i 0 (S j)) (nth (S j) x f0)) = f0
    end.
  (** poseidon2_rust_params.sage:251-259 subspace_times_matrix *)
  Definition subspace_times_matrix (S : space) (M : mat) (t : nat) : space :=
    span t (fun y => exists x, S x /\ y = mat_apply t t M x).

  (** poseidon2_rust_params.sage:283-290: the span of the intersections of S with the eigenspaces for eigenvalues in F *)
  Definition eigen_part (S : space) (mat_test : mat) (t : nat) : space :=
    span t (fun x => S x /\ exists lambda, mat_apply t t mat_test x = map (fun i => fmul lambda (nth i x f0)) (seq 0 t)).

  (** poseidon2_rust_params.sage:262-300 algorithm_1 returns True; with s = 1, r is t - 1 *)
  Definition algorithm_1 (M : mat) (t : nat) : Prop :=
    let M_round := fun j => mat_pow t M (j + 1) in
    forall i, 1 <= i < t - 1 + 1 ->
      let mat_test := mat_pow t M i in
      let mat_target := entry (matrix_circulant (mat_test 0 0 :: repeat f0 (t - 1))) in
      let S := generate_vectorspace i M_round t in
      let IS := eigen_part S mat_test t in
      ~ (forall k l, k < t -> l < t -> fsub (mat_test k l) (mat_target k l) = entry (matrix_circulant (repeat f0 t)) k l) /\
      ~ ((exists v, IS v /\ v <> repeat f0 t) /\ ~ same_space IS (fun v => length v = t)) /\
      forall j, 1 <= j < i + 1 -> ~ same_space S (subspace_times_matrix S (mat_pow t M j) t).

  (** poseidon2_rust_params.sage:323-332: the loop of algorithm_2 leaves with test_next = True; [full] is full_iota_space *)
  Inductive algorithm_2_loop (M : mat) (t : nat) (full : space) : space -> list F -> Prop :=
  | alg2_full IS v : let v' := mat_apply t t M v in let IS' := span t (fun x => IS x \/ x = v') in
      same_space IS' (fun x => length x = t) -> algorithm_2_loop M t full IS v
  | alg2_iota IS v : let v' := mat_apply t t M v in let IS' := span t (fun x => IS x \/ x = v') in
      ~ same_space (fun x => IS' x /\ full x) IS' -> algorithm_2_loop M t full IS v
  | alg2_next IS v : let v' := mat_apply t t M v in let IS' := span t (fun x => IS x \/ x = v') in
      ~ (forall x, IS' x -> IS x) -> algorithm_2_loop M t full IS' v' -> algorithm_2_loop M t full IS v.
  (** poseidon2_rust_params.sage:303-338 algorithm_2 returns True; with s = 1 the only I_s is [0] *)
  Definition algorithm_2 (M : mat) (t : nat) : Prop :=
    algorithm_2_loop M t (span t (fun x => x = basis_vector t 0 \/ exists i, 1 <= i < t /\ x = basis_vector t i))
      (span t (fun x => x = basis_vector t 0)) (basis_vector t 0).

  (** poseidon2_rust_params.sage:341-380 algorithm_3 returns True *)
  Definition algorithm_3 (M : mat) (t : nat) : Prop :=
    let l := 4 * t in forall r, 2 <= r < l + 1 -> algorithm_2 (mat_pow t M r) t.
End ModelSubspace.
