(** * ModelGenerate: the matrices and permutations of poseidon2_rust_params.sage

    [t] is both the global variable t and NUM_CELLS, which the script sets to the same value (line 22).
    Only the branch for prime fields (FIELD = 1) is modelled.  The loops whose conditions are propositions
    ([ModelSubspace]) are relations between the generator's register before, the result and the register after. *)
From Verif Require Import Base Field Spec SpecPoseidon ModelGrain ModelSubspace.
Local Open Scope nat_scope.

Section Generate.
  Context {F : Type} {Fo : FOps F}.

  (** poseidon2_rust_params.sage:447, 451: M_circulant + M_diagonal *)
  Definition matrix_add (A B : list (list F)) : list (list F) :=
    map (fun '(r, s) => map (fun '(x, y) => fadd x y) (combine r s)) (combine A B).
  (** poseidon2_rust_params.sage:445-447 *)
  Definition partial_matrix (t : nat) (l : list Z) : list (list F) :=
    matrix_add (matrix_circulant (f_of_Z 0 :: repeat (f_of_Z 1) (t - 1))) (matrix_diagonal (map f_of_Z l)).

  (** poseidon2_rust_params.sage:445-451: draw until check_minpoly_condition returns True *)
  Inductive draw_partial (fuel n t : nat) : list bool -> list (list F) -> list bool -> Prop :=
  | draw_accept s l s' : grain_list fuel n t s = Ok (l, s') ->
      check_minpoly_condition t (entry (partial_matrix t l)) ->
      draw_partial fuel n t s (partial_matrix t l) s'
  | draw_reject s l s' M s'' : grain_list fuel n t s = Ok (l, s') ->
      ~ check_minpoly_condition t (entry (partial_matrix t l)) ->
      draw_partial fuel n t s' M s'' -> draw_partial fuel n t s M s''.

  (** poseidon2_rust_params.sage:433-456 generate_matrix_partial; the script exits when one of the three algorithms fails *)
  Definition generate_matrix_partial (fuel n t : nat) (s : list bool) (M : list (list F)) (s' : list bool) : Prop :=
    match t with
    | 2 => M = map (map f_of_Z) [[2; 1]; [1; 3]]%Z /\ s' = s
    | 3 => M = map (map f_of_Z) [[2; 1; 1]; [1; 2; 1]; [1; 1; 3]]%Z /\ s' = s
    | _ => draw_partial fuel n t s M s'
    end /\ algorithm_1 (entry M) t /\ algorithm_2 (entry M) t /\ algorithm_3 (entry M) t.

  (** poseidon2_rust_params.sage:393-407 generate_matrix (used for Poseidon): draw until the three algorithms accept *)
  Inductive generate_matrix (fuel n t : nat) : list bool -> list (list F) -> list bool -> Prop :=
  | matrix_accept s M s' : create_mds_p fuel fuel n t s = Ok (M, s') ->
      algorithm_1 (entry M) t /\ algorithm_2 (entry M) t /\ algorithm_3 (entry M) t ->
      generate_matrix fuel n t s M s'
  | matrix_reject s M s' M' s'' : create_mds_p fuel fuel n t s = Ok (M, s') ->
      ~ (algorithm_1 (entry M) t /\ algorithm_2 (entry M) t /\ algorithm_3 (entry M) t) ->
      generate_matrix fuel n t s' M' s'' -> generate_matrix fuel n t s M' s''.

  (** poseidon2_rust_params.sage:416 and 420 *)
  Definition M_small : list (list F) := map (map f_of_Z) [[5; 7; 1; 3]; [4; 6; 1; 1]; [1; 3; 5; 7]; [1; 1; 4; 6]]%Z.
  (** poseidon2_rust_params.sage:409-431 generate_matrix_full; [Panic] is exit().  The assignment of 4 x 4 blocks
      (lines 422-427) is modelled entry by entry. *)
  Definition generate_matrix_full (t : nat) : res (list (list F)) :=
    if t =? 2 then Ok (matrix_circulant (map f_of_Z [2; 1]%Z))
    else if t =? 3 then Ok (matrix_circulant (map f_of_Z [2; 1; 1]%Z))
    else if t =? 4 then Ok M_small
    else if t mod 4 =? 0 then
      Ok (map (fun i => map (fun j =>
        let e := entry M_small (i mod 4) (j mod 4) in if i / 4 =? j / 4 then fmul (f_of_Z 2) e else e) (seq 0 t)) (seq 0 t))
    else Panic.

  (** poseidon2_rust_params.sage:473-475 matrix_partial_m_1 *)
  Definition matrix_partial_m_1 (t : nat) (M : list (list F)) : list (list F) :=
    map (fun i => map (fun j => fsub (entry M i j) (if i =? j then f1 else f0)) (seq 0 t)) (seq 0 t).

  (** poseidon2_rust_params.sage:551-553 (and five more times): one word and one constant at a time; [c] counts the constants *)
  Definition add_constants (t : nat) (rc : list F) (st : list F * nat) : res (list F * nat) :=
    for_range 0 t (fun i '(s, c) => x <- idx s i ;; k <- idx rc c ;; s <- upd s i (fadd x k) ;; Ok (s, c + 1)) st.
  (** poseidon2_rust_params.sage:550-556 and 592-598: a full round; [alpha] is the exponent *)
  Definition script_full (t alpha : nat) (M : list (list F)) (rc : list F) (st : list F * nat) : res (list F * nat) :=
    '(s, c) <- add_constants t rc st ;;
    s <- for_range 0 t (fun i s => x <- idx s i ;; upd s i (fpow x alpha)) s ;;
    Ok (mat_apply t t (entry M) s, c).
  (** poseidon2_rust_params.sage:560-565 and 602-607: a partial round *)
  Definition script_partial (t alpha : nat) (M : list (list F)) (rc : list F) (st : list F * nat) : res (list F * nat) :=
    '(s, c) <- add_constants t rc st ;;
    x <- idx s 0 ;; s <- upd s 0 (fpow x alpha) ;;
    Ok (mat_apply t t (entry M) s, c).
  (** poseidon2_rust_params.sage:540-577 poseidon *)
  Definition script_poseidon (t alpha rf rp : nat) (M : list (list F)) (rc : list F) (input_words : list F) : res (list F) :=
    let R_f := rf / 2 in
    st <- for_range 0 R_f (fun _ => script_full t alpha M rc) (input_words, 0) ;;
    st <- for_range 0 rp (fun _ => script_partial t alpha M rc) st ;;
    st <- for_range 0 R_f (fun _ => script_full t alpha M rc) st ;;
    Ok (fst st).
  (** poseidon2_rust_params.sage:579-619 poseidon2 *)
  Definition script_poseidon2 (t alpha rf rp : nat) (matrix_full matrix_partial : list (list F)) (rc : list F)
      (input_words : list F) : res (list F) :=
    let R_f := rf / 2 in
    let state_words := mat_apply t t (entry matrix_full) input_words in
    st <- for_range 0 R_f (fun _ => script_full t alpha matrix_full rc) (state_words, 0) ;;
    st <- for_range 0 rp (fun _ => script_partial t alpha matrix_partial rc) st ;;
    st <- for_range 0 R_f (fun _ => script_full t alpha matrix_full rc) st ;;
    Ok (fst st).
End Generate.
