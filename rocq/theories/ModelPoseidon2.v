(** * ModelPoseidon2: src/poseidon2/poseidon2.rs and src/poseidon2/poseidon2_params.rs *)
From Verif Require Import Base Field ModelUtils.

(** poseidon2_params.rs:6-17 *)
Record Poseidon2Params (F : Type) := {
  p2_t : nat;
  p2_d : nat;
  p2_rounds_f_beginning : nat;
  p2_rounds_p : nat;
  p2_rounds_f_end : nat;
  p2_rounds : nat;
  p2_diag : list F;                  (* mat_internal_diag_m_1 *)
  p2_mat_internal : list (list F);   (* _mat_internal *)
  p2_rc : list (list F)              (* round_constants *)
}.
Arguments p2_t {F}. Arguments p2_d {F}. Arguments p2_rounds_f_beginning {F}.
Arguments p2_rounds_p {F}. Arguments p2_rounds_f_end {F}. Arguments p2_rounds {F}.
Arguments p2_diag {F}. Arguments p2_mat_internal {F}. Arguments p2_rc {F}.

Section Poseidon2.
  Context {F : Type} {Fo : FOps F}.

  (** poseidon2_params.rs:24-49 Poseidon2Params::new *)
  Definition p2_new (dbg : bool) (t d rounds_f rounds_p : nat) (diag : list F)
             (mat_internal rc : list (list F)) : res (Poseidon2Params F) :=
    assert ((d =? 3) || (d =? 5) || (d =? 7) || (d =? 11)) ;;
    assert (rounds_f mod 2 =? 0) ;;
    let r := rounds_f / 2 in
    rounds <- uadd dbg rounds_f rounds_p ;;
    Ok {| p2_t := t; p2_d := d; p2_rounds_f_beginning := r; p2_rounds_p := rounds_p;
          p2_rounds_f_end := r; p2_rounds := rounds; p2_diag := diag;
          p2_mat_internal := mat_internal; p2_rc := rc |}.

  (** poseidon2_params.rs:77-89 mat_vec_mul (the identical function of poseidon_params.rs:126-138) *)
  Definition mat_vec_mul (dbg : bool) (mat : list (list F)) (input : list F) : res (list F) :=
    let t := length mat in
    debug_assert dbg (t =? length input) ;;
    for_range 0 t (fun row out =>
      for_list (combine (seq 0 (length input)) input) (fun '(col, inp) out =>
        tmp <- idx2 mat row col ;;
        x <- idx out row ;;
        upd out row (fadd x (fmul tmp inp))) out)
      (repeat f0 t).

  (** poseidon2_params.rs:52-75 equivalent_round_constants.
      The shadowed inner index of line 67 is called [k]. *)
  Definition p2_equivalent_round_constants (dbg : bool) (rc mat_internal : list (list F))
             (rounds_f_beginning rounds_p : nat) : res (list (list F)) :=
    n_opt <- uadd dbg rounds_p 1 ;;
    let opt := repeat ([] : list F) n_opt in                           (* 58 *)
    inv <- mat_inverse dbg mat_internal ;;                             (* 59 *)
    s <- uadd dbg rounds_f_beginning rounds_p ;;
    p_end <- usub dbg s 1 ;;                                           (* 61 *)
    tmp <- idx rc p_end ;;                                             (* 62 *)
    hi <- usub dbg rounds_p 1 ;;
    '(opt, tmp) <- for_range_rev 0 hi (fun i '(opt, tmp) =>            (* 63 *)
        inv_cip <- mat_vec_mul dbg inv tmp ;;
        c0 <- idx inv_cip 0 ;;
        opt <- upd opt (i + 1) [c0] ;;                                 (* 65 *)
        ix <- uadd dbg rounds_f_beginning i ;;
        tmp <- idx rc ix ;;                                            (* 66 *)
        tmp <- for_range 1 (length inv_cip) (fun k tmp =>              (* 67-69 *)
            x <- idx tmp k ;; y <- idx inv_cip k ;;
            upd tmp k (fadd x y)) tmp ;;
        Ok (opt, tmp)) (opt, tmp) ;;
    opt <- upd opt 0 tmp ;;                                            (* 71 *)
    o0 <- idx opt 0 ;;
    upd opt rounds_p (repeat f0 (length o0)).                          (* 72 *)

  (** poseidon2.rs:59-86 sbox_p *)
  Definition p2_sbox_p (P : Poseidon2Params F) (input : F) : res F :=
    let input2 := fsquare input in
    match p2_d P with
    | 3 => Ok (fmul input2 input)
    | 5 => Ok (fmul (fsquare input2) input)
    | 7 => Ok (fmul (fmul (fsquare input2) input2) input)
    | _ => Panic
    end.

  (** poseidon2.rs:55-57 sbox *)
  Definition p2_sbox (P : Poseidon2Params F) (input : list F) : res (list F) :=
    mapM (p2_sbox_p P) input.

  (** poseidon2.rs:88-120 matmul_m4, the body of the loop *)
  Definition p2_m4_body (i : nat) (input : list F) : res (list F) :=
    let s := i * 4 in
    i0 <- idx input s ;; i1 <- idx input (s + 1) ;;
    let t_0 := fadd i0 i1 in                                   (* 93-94 *)
    i2 <- idx input (s + 2) ;; i3 <- idx input (s + 3) ;;
    let t_1 := fadd i2 i3 in                                   (* 95-96 *)
    let t_2 := fadd (fdouble i1) t_1 in                        (* 97-99 *)
    let t_3 := fadd (fdouble i3) t_0 in                        (* 100-102 *)
    let t_4 := fadd (fdouble (fdouble t_1)) t_3 in             (* 103-106 *)
    let t_5 := fadd (fdouble (fdouble t_0)) t_2 in             (* 107-110 *)
    let t_6 := fadd t_3 t_5 in                                 (* 111-112 *)
    let t_7 := fadd t_2 t_4 in                                 (* 113-114 *)
    input <- upd input s t_6 ;;
    input <- upd input (s + 1) t_5 ;;
    input <- upd input (s + 2) t_7 ;;
    upd input (s + 3) t_4.

  (** poseidon2.rs:88-120 matmul_m4 *)
  Definition p2_matmul_m4 (P : Poseidon2Params F) (input : list F) : res (list F) :=
    for_range 0 (p2_t P / 4) p2_m4_body input.

  (** poseidon2.rs:149-157: column sums over the groups of four *)
  Definition p2_stored (t4 : nat) (input : list F) : res (list F) :=
    for_range 0 4 (fun l stored =>
      x <- idx input l ;;
      stored <- upd stored l x ;;
      for_range 1 t4 (fun j stored =>
        s <- idx stored l ;; y <- idx input (4 * j + l) ;;
        upd stored l (fadd s y)) stored) (repeat f0 4).

  (** poseidon2.rs:145-161, the arm for t = 8, 12, 16, 20, 24 *)
  Definition p2_external_big (P : Poseidon2Params F) (input : list F) : res (list F) :=
    input <- p2_matmul_m4 P input ;;
    stored <- p2_stored (p2_t P / 4) input ;;
    for_range 0 (length input) (fun i input =>                 (* 158-160 *)
      x <- idx input i ;; y <- idx stored (i mod 4) ;;
      upd input i (fadd x y)) input.

  (** poseidon2.rs:122-166 matmul_external *)
  Definition p2_matmul_external (P : Poseidon2Params F) (input : list F) : res (list F) :=
    match p2_t P with
    | 2 =>
        a <- idx input 0 ;; b <- idx input 1 ;;
        let sum := fadd a b in
        input <- upd input 0 (fadd a sum) ;;
        upd input 1 (fadd b sum)
    | 3 =>
        a <- idx input 0 ;; b <- idx input 1 ;; c <- idx input 2 ;;
        let sum := fadd (fadd a b) c in
        input <- upd input 0 (fadd a sum) ;;
        input <- upd input 1 (fadd b sum) ;;
        upd input 2 (fadd c sum)
    | 4 => p2_matmul_m4 P input
    | 8 | 12 | 16 | 20 | 24 => p2_external_big P input
    | _ => Panic
    end.

  (** poseidon2.rs:193-206, the arm for t = 4, 8, 12, 16, 20, 24 *)
  Definition p2_internal_big (P : Poseidon2Params F) (input diag : list F) : res (list F) :=
    x0 <- idx input 0 ;;
    let sum := fold_left fadd (firstn (p2_t P - 1) (skipn 1 input)) x0 in   (* 195-200 *)
    for_range 0 (length input) (fun i input =>                             (* 202-205 *)
      x <- idx input i ;; m <- idx diag i ;;
      upd input i (fadd (fmul x m) sum)) input.

  (** poseidon2.rs:168-211 matmul_internal *)
  Definition p2_matmul_internal (P : Poseidon2Params F) (input diag : list F) : res (list F) :=
    match p2_t P with
    | 2 =>
        a <- idx input 0 ;; b <- idx input 1 ;;
        let sum := fadd a b in
        input <- upd input 0 (fadd a sum) ;;
        upd input 1 (fadd (fdouble b) sum)
    | 3 =>
        a <- idx input 0 ;; b <- idx input 1 ;; c <- idx input 2 ;;
        let sum := fadd (fadd a b) c in
        input <- upd input 0 (fadd a sum) ;;
        input <- upd input 1 (fadd b sum) ;;
        upd input 2 (fadd (fdouble c) sum)
    | 4 | 8 | 12 | 16 | 20 | 24 => p2_internal_big P input diag
    | _ => Panic
    end.

  (** poseidon2.rs:213-223 add_rc (identical: poseidon.rs:147-157, neptune.rs:35-45) *)
  Definition add_rc (input rc : list F) : list F :=
    map (fun '(a, b) => fadd a b) (combine input rc).

  (** poseidon2.rs:35-37 and 48-50, one full round *)
  Definition p2_full_round (P : Poseidon2Params F) (r : nat) (st : list F) : res (list F) :=
    rc <- idx (p2_rc P) r ;;
    st <- p2_sbox P (add_rc st rc) ;;
    p2_matmul_external P st.

  (** poseidon2.rs:42-44, one partial round *)
  Definition p2_partial_round (P : Poseidon2Params F) (r : nat) (st : list F) : res (list F) :=
    x <- idx st 0 ;; c <- idx2 (p2_rc P) r 0 ;;
    st <- upd st 0 (fadd x c) ;;
    x <- idx st 0 ;;
    y <- p2_sbox_p P x ;;
    st <- upd st 0 y ;;
    p2_matmul_internal P st (p2_diag P).

  (** poseidon2.rs:25-53 permutation *)
  Definition p2_permutation (dbg : bool) (P : Poseidon2Params F) (input : list F) : res (list F) :=
    assert (length input =? p2_t P) ;;
    st <- p2_matmul_external P input ;;
    st <- for_range 0 (p2_rounds_f_beginning P) (p2_full_round P) st ;;
    p_end <- uadd dbg (p2_rounds_f_beginning P) (p2_rounds_p P) ;;
    st <- for_range (p2_rounds_f_beginning P) p_end (p2_partial_round P) st ;;
    for_range p_end (p2_rounds P) (p2_full_round P) st.

  (** poseidon2.rs:226-230 compress; [input] is the slice of references *)
  Definition p2_compress (dbg : bool) (P : Poseidon2Params F) (input : list F) : res F :=
    a <- idx input 0 ;; b <- idx input 1 ;;
    out <- p2_permutation dbg P [a; b; f0] ;;
    idx out 0.

  (** poseidon2.rs:21-23 get_t *)
  Definition p2_get_t (P : Poseidon2Params F) : nat := p2_t P.
End Poseidon2.
