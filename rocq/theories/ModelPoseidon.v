(** * ModelPoseidon: src/poseidon/poseidon.rs and src/poseidon/poseidon_params.rs *)
From Verif Require Import Base Field ModelUtils ModelPoseidon2.

(** poseidon_params.rs:6-20 *)
Record PoseidonParams (F : Type) := {
  ps_t : nat;
  ps_d : nat;
  ps_rounds_f_beginning : nat;
  ps_rounds_p : nat;
  ps_rounds_f_end : nat;
  ps_rounds : nat;
  ps_mds : list (list F);
  ps_rc : list (list F);
  ps_opt_rc : list (list F);
  ps_w_hat : list (list F);
  ps_v : list (list F);
  ps_m_i : list (list F)
}.
Arguments ps_t {F}. Arguments ps_d {F}. Arguments ps_rounds_f_beginning {F}.
Arguments ps_rounds_p {F}. Arguments ps_rounds_f_end {F}. Arguments ps_rounds {F}.
Arguments ps_mds {F}. Arguments ps_rc {F}. Arguments ps_opt_rc {F}. Arguments ps_w_hat {F}.
Arguments ps_v {F}. Arguments ps_m_i {F}.

Section Poseidon.
  Context {F : Type} {Fo : FOps F}.

  (** poseidon_params.rs:140-153 mat_mat_mul *)
  Definition mat_mat_mul (mat1 mat2 : list (list F)) : res (list (list F)) :=
    let t := length mat1 in
    for_range 0 t (fun row out =>
      for_range 0 t (fun col1 out =>
        for_list (combine (seq 0 (length mat2)) mat2) (fun '(col2, m2) out =>
          tmp <- idx2 mat1 row col2 ;;
          y <- idx m2 col1 ;;
          x <- idx2 out row col1 ;;
          upd2 out row col1 (fadd x (fmul tmp y))) out) out)
      (repeat (repeat f0 t) t).

  (** poseidon_params.rs:72-81: m_hat, w and v_ of the current m_mul.
      [t - 1] is [usize] subtraction: [t = 0] panics (debug) or overflows the capacity of
      [vec!] (release); both are panics, so it is written as a check.
      Line 75: the ranges [..(t-1)] and [1..t] have the same length, so [clone_from_slice]
      panics only through slicing [m_mul[0]] out of range. *)
  Definition ps_split (t : nat) (m_mul : list (list F))
    : res (list (list F) * list F * list F) :=
    assert (1 <=? t) ;;
    let m_hat := repeat (repeat f0 (t - 1)) (t - 1) in
    let w := repeat f0 (t - 1) in
    row0 <- idx m_mul 0 ;;
    assert (t <=? length row0) ;;
    let v := firstn (t - 1) (skipn 1 row0) in
    '(m_hat, w) <- for_range 1 t (fun row '(m_hat, w) =>
        m_hat <- for_range 1 t (fun col m_hat =>
            x <- idx2 m_mul row col ;;
            upd2 m_hat (row - 1) (col - 1) x) m_hat ;;
        x <- idx2 m_mul row 0 ;;
        w <- upd w (row - 1) x ;;
        Ok (m_hat, w)) (m_hat, w) ;;
    Ok (m_hat, w, v).

  (** poseidon_params.rs:90-95: m_i from m_mul *)
  Definition ps_next_m_i (t : nat) (m_mul : list (list F)) : res (list (list F)) :=
    m_i <- upd2 m_mul 0 0 f1 ;;
    for_range 1 t (fun i m_i =>
      m_i <- upd2 m_i 0 i f0 ;; upd2 m_i i 0 f0) m_i.

  (** poseidon_params.rs:70-97, one iteration; state (m_i, m_mul, v, w_hat) *)
  Definition ps_eqmat_body (dbg : bool) (t : nat) (mds_ : list (list F))
             (st : list (list F) * list (list F) * list (list F) * list (list F)) :=
    let '(m_i, m_mul, v, w_hat) := st in
    '(m_hat, w, v_) <- ps_split t m_mul ;;
    m_hat_inv <- mat_inverse dbg m_hat ;;                        (* 83 *)
    w_hat_ <- mat_vec_mul dbg m_hat_inv w ;;                     (* 84 *)
    m_i <- ps_next_m_i t m_mul ;;
    m_mul <- mat_mat_mul mds_ m_i ;;                             (* 96 *)
    Ok (m_i, m_mul, v ++ [v_], w_hat ++ [w_hat_]).

  (** poseidon_params.rs:58-100 equivalent_matrices; returns (m_i, v, w_hat) *)
  Definition ps_equivalent_matrices (dbg : bool) (mds : list (list F)) (t rounds_p : nat)
    : res (list (list F) * list (list F) * list (list F)) :=
    let m_i := repeat (repeat f0 t) t in
    mds_ <- mat_transpose mds ;;
    '(m_i, m_mul, v, w_hat) <-
        for_range 0 rounds_p (fun _ => ps_eqmat_body dbg t mds_) (m_i, mds_, [], []) ;;
    m_i_t <- mat_transpose m_i ;;
    Ok (m_i_t, v, w_hat).

  (** poseidon_params.rs:102-124 equivalent_round_constants *)
  Definition ps_equivalent_round_constants (dbg : bool) (rc mds : list (list F))
             (rounds_f_beginning rounds_p : nat) : res (list (list F)) :=
    let opt := repeat ([] : list F) rounds_p in                        (* 108 *)
    inv <- mat_inverse dbg mds ;;                                      (* 109 *)
    s <- uadd dbg rounds_f_beginning rounds_p ;;
    p_end <- usub dbg s 1 ;;                                           (* 111 *)
    tmp <- idx rc p_end ;;                                             (* 112 *)
    hi <- usub dbg rounds_p 1 ;;
    '(opt, tmp) <- for_range_rev 0 hi (fun i '(opt, tmp) =>            (* 113 *)
        inv_cip <- mat_vec_mul dbg inv tmp ;;
        c0 <- idx inv_cip 0 ;;
        opt <- upd opt (i + 1) [c0] ;;                                 (* 115 *)
        ix <- uadd dbg rounds_f_beginning i ;;
        tmp <- idx rc ix ;;                                            (* 116 *)
        tmp <- for_range 1 (length inv_cip) (fun k tmp =>              (* 117-119 *)
            x <- idx tmp k ;; y <- idx inv_cip k ;;
            upd tmp k (fadd x y)) tmp ;;
        Ok (opt, tmp)) (opt, tmp) ;;
    upd opt 0 tmp.                                                     (* 121 *)

  (** poseidon_params.rs:24-55 PoseidonParams::new *)
  Definition ps_new (dbg : bool) (t d rounds_f rounds_p : nat) (mds rc : list (list F))
    : res (PoseidonParams F) :=
    assert ((d =? 3) || (d =? 5) || (d =? 7)) ;;
    assert (length mds =? t) ;;
    assert (rounds_f mod 2 =? 0) ;;
    let r := rounds_f / 2 in
    rounds <- uadd dbg rounds_f rounds_p ;;
    '(m_i, v, w_hat) <- ps_equivalent_matrices dbg mds t rounds_p ;;
    opt <- ps_equivalent_round_constants dbg rc mds r rounds_p ;;
    Ok {| ps_t := t; ps_d := d; ps_rounds_f_beginning := r; ps_rounds_p := rounds_p;
          ps_rounds_f_end := r; ps_rounds := rounds; ps_mds := mds; ps_rc := rc;
          ps_opt_rc := opt; ps_w_hat := w_hat; ps_v := v; ps_m_i := m_i |}.

  (** poseidon.rs:82-109 sbox_p *)
  Definition ps_sbox_p (P : PoseidonParams F) (input : F) : res F :=
    let input2 := fsquare input in
    match ps_d P with
    | 3 => Ok (fmul input2 input)
    | 5 => Ok (fmul (fsquare input2) input)
    | 7 => Ok (fmul (fmul (fsquare input2) input2) input)
    | _ => Panic
    end.

  (** poseidon.rs:78-80 sbox *)
  Definition ps_sbox (P : PoseidonParams F) (input : list F) : res (list F) :=
    mapM (ps_sbox_p P) input.

  (** poseidon.rs:111-131 cheap_matmul *)
  Definition ps_cheap_matmul (P : PoseidonParams F) (input : list F) (r : nat) : res (list F) :=
    v <- idx (ps_v P) r ;;
    w_hat <- idx (ps_w_hat P) r ;;
    let t := ps_t P in
    let ns := repeat f0 t in
    m00 <- idx2 (ps_mds P) 0 0 ;;
    ns <- upd ns 0 m00 ;;                                        (* 117 *)
    x0 <- idx input 0 ;;
    n0 <- idx ns 0 ;;
    ns <- upd ns 0 (fmul n0 x0) ;;                               (* 118 *)
    ns <- for_range 1 t (fun i ns =>                             (* 119-123 *)
        tmp <- idx w_hat (i - 1) ;; x <- idx input i ;;
        n0 <- idx ns 0 ;;
        upd ns 0 (fadd n0 (fmul tmp x))) ns ;;
    for_range 1 t (fun i ns =>                                   (* 124-128 *)
        x0 <- idx input 0 ;;
        ns <- upd ns i x0 ;;
        y <- idx ns i ;; vi <- idx v (i - 1) ;; x <- idx input i ;;
        upd ns i (fadd (fmul y vi) x)) ns.

  (** poseidon.rs:133-145 matmul *)
  Definition ps_matmul (dbg : bool) (input : list F) (mat : list (list F)) : res (list F) :=
    let t := length mat in
    debug_assert dbg (t =? length input) ;;
    for_range 0 t (fun row out =>
      for_list (firstn t (combine (seq 0 (length input)) input)) (fun '(col, inp) out =>
        tmp <- idx2 mat row col ;;
        x <- idx out row ;;
        upd out row (fadd x (fmul tmp inp))) out)
      (repeat f0 t).

  (** poseidon.rs:28-30, 46-48, 60-62, 71-73: one full round *)
  Definition ps_full_round (dbg : bool) (P : PoseidonParams F) (r : nat) (st : list F) : res (list F) :=
    rc <- idx (ps_rc P) r ;;
    st <- ps_sbox P (add_rc st rc) ;;
    ps_matmul dbg st (ps_mds P).

  (** poseidon.rs:37-43, one optimised partial round.  [p_end - 1], [p_end - r - 1] and
      [r + 1 - rounds_f_beginning] do not underflow inside the loop. *)
  Definition ps_opt_partial_round (P : PoseidonParams F) (p_end r : nat) (st : list F) : res (list F) :=
    x <- idx st 0 ;;
    y <- ps_sbox_p P x ;;
    st <- upd st 0 y ;;
    st <- (if r <? p_end - 1 then
             y <- idx st 0 ;;
             c <- idx2 (ps_opt_rc P) (r + 1 - ps_rounds_f_beginning P) 0 ;;
             upd st 0 (fadd y c)
           else Ok st) ;;
    ps_cheap_matmul P st (p_end - r - 1).

  (** poseidon.rs:22-51 permutation *)
  Definition ps_permutation (dbg : bool) (P : PoseidonParams F) (input : list F) : res (list F) :=
    assert (length input =? ps_t P) ;;
    st <- for_range 0 (ps_rounds_f_beginning P) (ps_full_round dbg P) input ;;
    p_end <- uadd dbg (ps_rounds_f_beginning P) (ps_rounds_p P) ;;
    c0 <- idx (ps_opt_rc P) 0 ;;
    st <- ps_matmul dbg (add_rc st c0) (ps_m_i P) ;;
    st <- for_range (ps_rounds_f_beginning P) p_end (ps_opt_partial_round P p_end) st ;;
    for_range p_end (ps_rounds P) (ps_full_round dbg P) st.

  (** poseidon.rs:66-68, one plain partial round *)
  Definition ps_partial_round (dbg : bool) (P : PoseidonParams F) (r : nat) (st : list F) : res (list F) :=
    rc <- idx (ps_rc P) r ;;
    let st := add_rc st rc in
    x <- idx st 0 ;;
    y <- ps_sbox_p P x ;;
    st <- upd st 0 y ;;
    ps_matmul dbg st (ps_mds P).

  (** poseidon.rs:53-76 permutation_not_opt *)
  Definition ps_permutation_not_opt (dbg : bool) (P : PoseidonParams F) (input : list F) : res (list F) :=
    assert (length input =? ps_t P) ;;
    st <- for_range 0 (ps_rounds_f_beginning P) (ps_full_round dbg P) input ;;
    p_end <- uadd dbg (ps_rounds_f_beginning P) (ps_rounds_p P) ;;
    st <- for_range (ps_rounds_f_beginning P) p_end (ps_partial_round dbg P) st ;;
    for_range p_end (ps_rounds P) (ps_full_round dbg P) st.

  (** poseidon.rs:160-164 compress *)
  Definition ps_compress (dbg : bool) (P : PoseidonParams F) (input : list F) : res F :=
    a <- idx input 0 ;; b <- idx input 1 ;;
    out <- ps_permutation dbg P [a; b; f0] ;;
    idx out 0.

  (** poseidon.rs:18-20 get_t *)
  Definition ps_get_t (P : PoseidonParams F) : nat := ps_t P.
End Poseidon.
