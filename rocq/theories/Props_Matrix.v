(** * Properties of the matrix routines: C18-C21 *)
From Verif Require Import Base Field Spec ModelUtils ModelPoseidon2 ModelPoseidon F13.
From Verif Require ProofMatInverse ProofMatHelpers ProofTotal MatLoops.

Definition outm13 (r : res (list (list F13))) : res (list (list Z)) :=
  bind r (fun l => Ok (map (map (@f_to_Z _ F13_ops)) l)).
Definition m13 (l : list (list Z)) : list (list F13) := map l13 l.

(** ** C18 *)
Theorem C18_mat_inverse_sound :
  forall F (Fo : FOps F), is_field Fo ->
  forall dbg n (m B : list (list F)),
    dims n n m -> mat_inverse dbg m = Ok B ->
    dims n n B /\ is_inverse n (entry m) (entry B).
Proof. exact @ProofMatInverse.mat_inverse_sound. Qed.
Print Assumptions C18_mat_inverse_sound.

Example C18_ex : outm13 (mat_inverse true (m13 [[2;3;1];[5;7;8];[1;1;4]]%Z)) = Ok [[10;1;2];[7;10;1];[12;7;6]]%Z.
Proof. vm_compute. reflexivity. Qed.
Example C18_ex_dims : dims 3 3 (m13 [[2;3;1];[5;7;8];[1;1;4]]%Z).
Proof. split; [reflexivity|]. intros i Hi. destruct i as [|[|[|]]]; reflexivity || lia. Qed.

(** ** C19 *)
Theorem C19_mat_inverse_success_iff :
  forall F (Fo : FOps F), is_field Fo ->
  forall dbg n (m : list (list F)), 1 <= n -> dims n n m ->
    ((exists B, mat_inverse dbg m = Ok B) <-> (forall k, 1 <= k <= n -> nonsingular k (entry m))) /\
    ((exists B, mat_inverse dbg m = Ok B) \/ mat_inverse dbg m = Panic).
Proof. exact @ProofMatInverse.mat_inverse_success. Qed.
Print Assumptions C19_mat_inverse_success_iff.

Theorem C19_mat_inverse_empty : forall F (Fo : FOps F) dbg, mat_inverse (F := F) dbg [] = Panic.
Proof. exact @ProofMatInverse.mat_inverse_nil. Qed.
Print Assumptions C19_mat_inverse_empty.

(** a first row of the wrong length is rejected in both profiles, also when the other rows are fine *)
Theorem C19_mat_inverse_not_square_panics :
  forall F (Fo : FOps F) dbg (m : list (list F)),
    length (nth 0 m []) <> length m -> mat_inverse dbg m = Panic.
Proof. exact @ProofTotal.mat_inverse_not_square. Qed.
Print Assumptions C19_mat_inverse_not_square_panics.

Example C19_ex_not_square :
  length (nth 0 (m13 [[1;2;3];[0;1;4]]%Z) []) <> length (m13 [[1;2;3];[0;1;4]]%Z) /\
  mat_inverse false (m13 [[1;2;3];[0;1;4]]%Z) = Panic /\
  outm13 (mat_inverse false (m13 [[1;2];[0;1]]%Z)) = Ok [[1;11];[0;1]]%Z.
Proof. vm_compute. split; [discriminate|split; reflexivity]. Qed.

(** "every invertible matrix is inverted" is false in every field *)
Theorem C19_inverts_every_invertible_refuted :
  forall F (Fo : FOps F), is_field Fo ->
  exists m : list (list F), dims 2 2 m /\ invertible 2 (entry m) /\ forall dbg, mat_inverse dbg m = Panic.
Proof. exact @ProofMatInverse.mat_inverse_no_pivot. Qed.
Print Assumptions C19_inverts_every_invertible_refuted.

(** a matrix with nonsingular leading blocks, and one whose second leading block is singular *)
Example C19_ex_ok : outm13 (mat_inverse false (m13 [[2;3;1];[5;7;8];[1;1;4]]%Z)) = Ok [[10;1;2];[7;10;1];[12;7;6]]%Z.
Proof. vm_compute. reflexivity. Qed.
Example C19_ex_panic : mat_inverse false (m13 [[1;2;1];[2;4;5];[1;1;4]]%Z) = Panic.
Proof. vm_compute. reflexivity. Qed.

(** ** C20: the two profiles *)
Theorem C20_mat_inverse_profiles :
  forall F (Fo : FOps F), is_field Fo ->
  forall n (m : list (list F)), dims n n m -> mat_inverse true m = mat_inverse false m.
Proof. exact @ProofMatInverse.mat_inverse_profiles. Qed.
Print Assumptions C20_mat_inverse_profiles.

(** without the dimension hypothesis the profiles differ *)
Theorem C20_mat_inverse_ragged_refuted :
  forall F (Fo : FOps F), is_field Fo ->
  exists m B : list (list F), mat_inverse false m = Ok B /\ mat_inverse true m = Panic.
Proof. exact @ProofMatInverse.mat_inverse_ragged. Qed.
Print Assumptions C20_mat_inverse_ragged_refuted.

Example C20_ex_profiles :
  outm13 (mat_inverse true (m13 [[2;3];[5;7]]%Z)) = Ok [[6;3];[5;11]]%Z /\
  outm13 (mat_inverse false (m13 [[2;3];[5;7]]%Z)) = Ok [[6;3];[5;11]]%Z.
Proof. split; vm_compute; reflexivity. Qed.

(** ** C21 *)
Theorem C21_transpose :
  forall F (Fo : FOps F) (m : list (list F)) r c, dims r c m -> 1 <= r ->
    exists m', mat_transpose m = Ok m' /\ dims c r m' /\
               forall i j, i < c -> j < r -> entry m' i j = entry m j i.
Proof. exact @ProofMatHelpers.mat_transpose_spec. Qed.
Print Assumptions C21_transpose.

Theorem C21_transpose_involutive :
  forall F (Fo : FOps F) (m : list (list F)) r c, dims r c m -> 1 <= r -> 1 <= c ->
    exists m', mat_transpose m = Ok m' /\ mat_transpose m' = Ok m.
Proof. exact @ProofMatHelpers.mat_transpose_involutive. Qed.
Print Assumptions C21_transpose_involutive.

Theorem C21_mat_vec_mul :
  forall F (Fo : FOps F), is_field Fo ->
  forall dbg n m (A : list (list F)) (x : list F),
    dims n m A -> length x = m -> (dbg = true -> n = m) ->
    mat_vec_mul dbg A x = Ok (mat_apply n m (entry A) x).
Proof. exact @ProofMatHelpers.mat_vec_mul_spec. Qed.
Print Assumptions C21_mat_vec_mul.

(** debug builds reject a vector whose length is not the number of rows *)
Theorem C21_mat_vec_mul_debug_length :
  forall F (Fo : FOps F) (A : list (list F)) (x : list F),
    length x <> length A -> mat_vec_mul true A x = Panic.
Proof. exact @ProofTotal.mat_vec_mul_debug_size. Qed.
Print Assumptions C21_mat_vec_mul_debug_length.

(** release builds do not: a 2 x 3 matrix is applied to a vector of length 3 *)
Example C21_ex_vec_length :
  mat_vec_mul true (m13 [[1;2;3];[3;4;5]]%Z) (l13 [5;6;1]%Z) = Panic /\
  out13 (mat_vec_mul false (m13 [[1;2;3];[3;4;5]]%Z) (l13 [5;6;1]%Z)) = Ok [7;5]%Z.
Proof. vm_compute. split; reflexivity. Qed.

Theorem C21_mat_mat_mul :
  forall F (Fo : FOps F) n m (A B : list (list F)), dims n m A -> dims m n B ->
    exists C, mat_mat_mul A B = Ok C /\ dims n n C /\
              forall i j, i < n -> j < n -> entry C i j = mat_mul m (entry A) (entry B) i j.
Proof. exact @ProofMatHelpers.mat_mat_mul_spec. Qed.
Print Assumptions C21_mat_mat_mul.

Example C21_ex_transpose : outm13 (mat_transpose (m13 [[1;2;3];[4;5;6]]%Z)) = Ok [[1;4];[2;5];[3;6]]%Z.
Proof. vm_compute. reflexivity. Qed.
Example C21_ex_vec : out13 (mat_vec_mul true (m13 [[1;2];[3;4]]%Z) (l13 [5;6]%Z)) = Ok [4;0]%Z.
Proof. vm_compute. reflexivity. Qed.
Example C21_ex_mat : outm13 (mat_mat_mul (m13 [[1;2];[3;4]]%Z) (m13 [[5;6];[7;8]]%Z)) = Ok [[6;9];[4;11]]%Z.
Proof. vm_compute. reflexivity. Qed.
(** an empty column space is lost: transposing twice panics *)
Example C21_ex_empty : bind (mat_transpose (m13 [[];[]])) mat_transpose = Panic.
Proof. vm_compute. reflexivity. Qed.
