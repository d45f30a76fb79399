(** * ModelEquivalent: calc_equivalent_matrices, calc_equivalent_constants and generate_matrix_partial_small_entries of
      poseidon2_rust_params.sage

    The script does not call these functions.  [t] is the global variable t, [rp] is R_P_FIXED and [rf] is
    R_F_FIXED.  A matrix is the list of its rows.  Sage's [inverse] is modelled by the defining equations
    ([is_inverse]); it raises an exception exactly if there is no such matrix, and then there is no result. *)
From Verif Require Import Base Field Spec SpecPoseidon ModelSubspace ModelGenerate.
Local Open Scope nat_scope.

Section Equivalent.
  Context {F : Type} {Fo : FOps F}.

  (** the r x c matrix with the entries f i j *)
  Definition rows_of (r c : nat) (f : nat -> nat -> F) : list (list F) :=
    map (fun i => map (fun j => f i j) (seq 0 c)) (seq 0 r).

  (** poseidon2_rust_params.sage:508-510 M_hat, w and v *)
  Definition sub_M_hat (t : nat) (M_mul : list (list F)) : list (list F) :=
    rows_of (t - 1) (t - 1) (fun i j => entry M_mul (i + 1) (j + 1)).
  Definition sub_w (t : nat) (M_mul : list (list F)) : list F := map (fun i => entry M_mul (i + 1) 0) (seq 0 (t - 1)).
  Definition sub_v (t : nat) (M_mul : list (list F)) : list F := map (fun j => entry M_mul 0 (j + 1)) (seq 0 (t - 1)).
  (** poseidon2_rust_params.sage:516-517 the identity with the block M_hat.  Sage keeps M_i over the integers; the
      residues are meant. *)
  Definition with_block (t : nat) (M_hat : list (list F)) : list (list F) :=
    rows_of t t (fun i j => if (1 <=? i) && (1 <=? j) then entry M_hat (i - 1) (j - 1) else if i =? j then f1 else f0).
  (** A * B *)
  Definition times (t : nat) (A B : list (list F)) : list (list F) := rows_of t t (mat_mul t (entry A) (entry B)).

  (** poseidon2_rust_params.sage:507-518 the loop with n iterations left; variables M_i, M_mul, v_collection, w_hat_collection *)
  Inductive equivalent_loop (t : nat) (MT : list (list F)) :
    nat -> list (list F) -> list (list F) -> list (list F) -> list (list F) -> list (list F) * list (list F) * list (list F) -> Prop :=
  | loop_done M_i M_mul vs ws : equivalent_loop t MT 0 M_i M_mul vs ws (M_i, vs, ws)
  | loop_next n M_i M_mul vs ws B r :
      let M_hat := sub_M_hat t M_mul in
      is_inverse (t - 1) (entry M_hat) (entry B) ->
      let w_hat := mat_apply (t - 1) (t - 1) (entry B) (sub_w t M_mul) in
      equivalent_loop t MT n (with_block t M_hat) (times t MT (with_block t M_hat)) (vs ++ [sub_v t M_mul]) (ws ++ [w_hat]) r ->
      equivalent_loop t MT (S n) M_i M_mul vs ws r.

  (** MDS_matrix_field.transpose() *)
  Definition transposed (t : nat) (M : list (list F)) : list (list F) := rows_of t t (fun i j => entry M j i).

  (** poseidon2_rust_params.sage:494-520 calc_equivalent_matrices returns (M_i, v_collection, w_hat_collection, M_0_0) *)
  Definition calc_equivalent_matrices (t rp : nat) (M M_i vs ws : list (list F)) (M_0_0 : F) : Prop :=
    let MT := transposed t M in
    equivalent_loop t MT rp (rows_of t t (fun _ _ => f0)) MT [] [] (M_i, vs, ws) /\ M_0_0 = entry MT 0 0.

  (** poseidon2_rust_params.sage:523: the constants in rows of t; the last row may be shorter *)
  Definition in_rows (t : nat) (constants : list F) : list (list F) :=
    map (fun k => firstn t (skipn (k * t) constants)) (seq 0 ((length constants + t - 1) / t)).
  (** poseidon2_rust_params.sage:534-536: one iteration; a vector of another length than t does not fit the matrix *)
  Definition move_constants (t : nat) (inv : list (list F)) (i : nat) (temp : list (list F)) : res (list (list F)) :=
    next <- idx temp (i + 1) ;;
    assert (length next =? t) ;;
    let inv_cip1 := map (fun j => sumn t (fun k => fmul (nth k next f0) (entry inv k j))) (seq 0 t) in
    this <- idx temp i ;;
    assert (length this =? t) ;;
    temp <- upd temp i (map (fun j => fadd (nth j this f0) (nth j (f0 :: skipn 1 inv_cip1) f0)) (seq 0 t)) ;;
    upd temp (i + 1) (nth 0 inv_cip1 f0 :: repeat f0 (t - 1)).
  (** poseidon2_rust_params.sage:522-538 calc_equivalent_constants returns [out].  R_f = R_F_FIXED / 2 is a rational
      number in Sage; the model is for an even R_F_FIXED. *)
  Definition calc_equivalent_constants (t rf rp : nat) (constants : list F) (M out : list (list F)) : Prop :=
    let temp := in_rows t constants in
    let num_rounds := rf + rp in
    let R_f := rf / 2 in
    if R_f <? num_rounds - 1 - R_f then
      exists inv, is_inverse t (entry (transposed t M)) (entry inv) /\
        for_range_rev R_f (num_rounds - 1 - R_f) (move_constants t inv) temp = Ok out
    else out = temp.

  (** itertools.product(values, repeat=n), as in poseidon2_rust_params.sage:464 *)
  Fixpoint product_repeat (values : list Z) (n : nat) : list (list Z) :=
    match n with O => [[]] | S m => flat_map (fun x => map (cons x) (product_repeat values m)) values end.
  (** poseidon2_rust_params.sage:465-471 the loop over the combinations; None if no combination is accepted *)
  Inductive small_entries_loop (t : nat) : list (list Z) -> option (list (list F)) -> Prop :=
  | small_none : small_entries_loop t [] None
  | small_found e l : let M := partial_matrix t e in
      invertible t (entry M) /\ check_minpoly_condition t (entry M) -> small_entries_loop t (e :: l) (Some M)
  | small_next e l r : let M := partial_matrix t e in
      ~ (invertible t (entry M) /\ check_minpoly_condition t (entry M)) ->
      small_entries_loop t l r -> small_entries_loop t (e :: l) r.
  (** poseidon2_rust_params.sage:458-471 generate_matrix_partial_small_entries, for FIELD = 1 *)
  Definition generate_matrix_partial_small_entries (t : nat) (r : option (list (list F))) : Prop :=
    small_entries_loop t (product_repeat [2; 3; 4; 5]%Z t) r.
End Equivalent.
