(** * ModelNeptune: src/neptune/neptune.rs and src/neptune/neptune_params.rs *)
From Verif Require Import Base Field ModelPoseidon2 ModelRandom.

(** neptune_params.rs:6-20.  [np_abc] and [np_a_] are Rust arrays of length three. *)
Record NeptuneParams (F : Type) := {
  np_t : nat;
  np_d : nat;
  np_rounds_f_beginning : nat;
  np_rounds_p : nat;
  np_rounds_f_end : nat;
  np_rounds : nat;
  np_rc : list (list F);
  np_m_e : list (list F);
  np_mu : list F;
  np_abc : F * F * F;
  np_a_ : F * F * F
}.
Arguments np_t {F}. Arguments np_d {F}. Arguments np_rounds_f_beginning {F}. Arguments np_rounds_p {F}.
Arguments np_rounds_f_end {F}. Arguments np_rounds {F}. Arguments np_rc {F}. Arguments np_m_e {F}.
Arguments np_mu {F}. Arguments np_abc {F}. Arguments np_a_ {F}.

Section Neptune.
  Context {F : Type} {Fo : FOps F}.

  (** neptune_params.rs:71-79 instantiate_rc *)
  Definition np_instantiate_rc (t rounds : nat) (rng : nat -> F) (pos : nat) := random_rows rounds t rng pos.

  (** neptune_params.rs:81-85 instantiate_abc *)
  Definition np_instantiate_abc (rng : nat -> F) (pos : nat) : (F * F * F) * nat :=
    let '(c, pos) := random_scalar rng pos in ((f1, f1, c), pos).

  (** neptune_params.rs:87-96 instantiate_mu *)
  Fixpoint np_instantiate_mu (fuel t : nat) (rng : nat -> F) (pos : nat) : res (list F * nat) :=
    match t with
    | O => Ok ([], pos)
    | S t' =>
        '(tmp, pos) <- random_scalar_without_0 fuel rng pos ;;
        let tmp := fsub tmp f1 in
        '(l, pos) <- np_instantiate_mu fuel t' rng pos ;;
        Ok (tmp :: l, pos)
    end.

  (** neptune_params.rs:155-165 circ_mat *)
  Definition np_circ_mat (row : list F) : res (list (list F)) :=
    let t := length row in
    '(mat, rot) <- for_range 1 t (fun _ '(mat, rot) =>
        rot <- rotate_right rot 1 ;;
        Ok (mat ++ [rot], rot)) ([row], row) ;;
    Ok mat.

  (** neptune_params.rs:102-137: the matrices M' and M'' *)
  Definition np_blocks (t : nat) (rng : nat -> F) (pos : nat) : res (list (list F) * list (list F) * nat) :=
    let t_ := t / 2 in
    if t =? 4 then
      m_ <- np_circ_mat [f_of_Z 2; f1] ;;
      m__ <- np_circ_mat [f1; f_of_Z 2] ;;
      Ok (m_, m__, pos)
    else if t =? 8 then
      m_ <- np_circ_mat [f_of_Z 3; f_of_Z 2; f_of_Z 1; f_of_Z 1] ;;
      m__ <- np_circ_mat [f_of_Z 1; f_of_Z 1; f_of_Z 2; f_of_Z 3] ;;
      Ok (m_, m__, pos)
    else
      let '(m_, pos) := random_rows t_ t_ rng pos in
      let '(m__, pos) := random_rows t_ t_ rng pos in
      Ok (m_, m__, pos).

  (** neptune_params.rs:98-153 instantiate_external_matrix *)
  Definition np_instantiate_external_matrix (t : nat) (rng : nat -> F) (pos : nat) : res (list (list F) * nat) :=
    let t_ := t / 2 in
    let mat := repeat (repeat f0 t) t in
    '(m_, m__, pos) <- np_blocks t rng pos ;;
    mat <- for_range 0 t_ (fun row mat =>                               (* 140-144 *)
      for_range 0 t_ (fun col mat =>
        v <- idx2 m_ row col ;; upd2 mat (2 * row) (2 * col) v) mat) mat ;;
    mat <- for_range 0 t_ (fun row mat =>                               (* 147-151 *)
      for_range 0 t_ (fun col mat =>
        v <- idx2 m__ row col ;; upd2 mat (2 * row + 1) (2 * col + 1) v) mat) mat ;;
    Ok (mat, pos).

  (** neptune_params.rs:25-60 NeptuneParams::new *)
  Definition np_new (dbg : bool) (fuel : nat) (rng : nat -> F) (t d rounds_f rounds_p : nat)
    : res (NeptuneParams F) :=
    assert ((d =? 3) || (d =? 5) || (d =? 7)) ;;
    assert (rounds_f mod 2 =? 0) ;;
    assert (t mod 2 =? 0) ;;
    let r := rounds_f / 2 in
    rounds <- uadd dbg rounds_f rounds_p ;;
    let '(round_constants, pos) := np_instantiate_rc t rounds rng 0 in
    '(m_e, pos) <- np_instantiate_external_matrix t rng pos ;;
    '(mu, pos) <- np_instantiate_mu fuel t rng pos ;;
    let '(abc, pos) := np_instantiate_abc rng pos in
    let '(alpha, beta, gamma) := abc in
    let a_0 := fsquare alpha in                                         (* 41 *)
    let a_1 := fdouble alpha in                                         (* 42 *)
    let a_2 := a_1 in                                                   (* 43 *)
    let a_1 := fadd a_1 alpha in                                        (* 44 *)
    let a_2 := fdouble a_2 in                                           (* 45 *)
    Ok {| np_t := t; np_d := d; np_rounds_f_beginning := r; np_rounds_p := rounds_p;
          np_rounds_f_end := r; np_rounds := rounds; np_rc := round_constants; np_m_e := m_e;
          np_mu := mu; np_abc := abc; np_a_ := (a_0, a_1, a_2) |}.

  (** neptune.rs:47-74 sbox_d *)
  Definition np_sbox_d (P : NeptuneParams F) (input : F) : res F :=
    let input2 := fsquare input in
    match np_d P with
    | 3 => Ok (fmul input2 input)
    | 5 => Ok (fmul (fsquare input2) input)
    | 7 => Ok (fmul (fmul (fsquare input2) input2) input)
    | _ => Panic
    end.

  (** neptune.rs:76-117 external_sbox_prime *)
  Definition np_external_sbox_prime (P : NeptuneParams F) (x1 x2 : F) : F * F :=
    let zi := fsub x1 x2 in                                             (* 77-78 *)
    let zib := fsquare zi in                                            (* 79-80 *)
    let sum := fadd x1 x2 in                                            (* 84-85 *)
    let y1 := fadd sum x1 in                                            (* 86, 88 *)
    let y2 := fadd (fadd sum x2) x2 in                                  (* 87, 89-90 *)
    let tmp1 := fdouble zib in                                          (* 95-96 *)
    let tmp2 := tmp1 in                                                 (* 97 *)
    let tmp1 := fadd tmp1 zib in                                        (* 98 *)
    let tmp2 := fdouble tmp2 in                                         (* 99 *)
    let y1 := fadd y1 tmp1 in
    let y2 := fadd y2 tmp2 in
    let tmp := fsub zi x2 in                                            (* 106-107 *)
    let tmp := fsub tmp zib in                                          (* 109 *)
    let tmp := fadd tmp (snd (np_abc P)) in                             (* 110 *)
    let tmp := fsquare tmp in                                           (* 111 *)
    (fadd y1 tmp, fadd y2 tmp).

  (** neptune.rs:119-129 external_sbox *)
  Definition np_external_sbox (P : NeptuneParams F) (input : list F) : res (list F) :=
    let t := length input in
    let t_ := t / 2 in
    for_range 0 t_ (fun i output =>
      a <- idx input (2 * i) ;; b <- idx input (2 * i + 1) ;;
      let out := np_external_sbox_prime P a b in
      output <- upd output (2 * i) (fst out) ;;
      upd output (2 * i + 1) (snd out)) (repeat f0 t).

  (** neptune.rs:131-135 internal_sbox *)
  Definition np_internal_sbox (P : NeptuneParams F) (input : list F) : res (list F) :=
    x <- idx input 0 ;;
    y <- np_sbox_d P x ;;
    upd input 0 y.

  (** neptune.rs:137-152 external_matmul_4 *)
  Definition np_external_matmul_4 (input : list F) : res (list F) :=
    output <- swap input 1 3 ;;
    i0 <- idx input 0 ;; i2 <- idx input 2 ;;
    let sum1 := fadd i0 i2 in
    i1 <- idx input 1 ;; i3 <- idx input 3 ;;
    let sum2 := fadd i1 i3 in
    o <- idx output 0 ;; output <- upd output 0 (fadd o sum1) ;;
    o <- idx output 1 ;; output <- upd output 1 (fadd o sum2) ;;
    o <- idx output 2 ;; output <- upd output 2 (fadd o sum1) ;;
    o <- idx output 3 ;; upd output 3 (fadd o sum2).

  (** [iter().step_by(2)]: every other element, starting with the first *)
  Fixpoint step_by_2 {A : Type} (l : list A) : list A :=
    match l with
    | a :: _ :: l' => a :: step_by_2 l'
    | _ => l
    end.

  (** neptune.rs:154-190 external_matmul_8 *)
  Definition np_external_matmul_8 (input : list F) : res (list F) :=
    output <- swap input 1 7 ;;
    output <- swap output 3 5 ;;
    i0 <- idx input 0 ;;
    i1 <- idx input 1 ;;
    let sum1 := fold_left fadd (skipn 1 (step_by_2 input)) i0 in                (* 163-167 *)
    let sum2 := fold_left fadd (skipn 1 (step_by_2 (skipn 1 input))) i1 in      (* 168-173 *)
    output_rot <- rotate_left output 2 ;;
    output <- for_list (combine (seq 0 (length output)) output_rot) (fun '(i, rot) output =>  (* 178-186 *)
        el <- idx output i ;;
        let el := fadd (fdouble el) rot in
        upd output i (if i mod 2 =? 0 then fadd el sum1 else fadd el sum2)) output ;;
    swap output 3 7.

  (** neptune.rs:192-217 external_matmul *)
  Definition np_external_matmul (P : NeptuneParams F) (input : list F) : res (list F) :=
    let t := np_t P in
    if t =? 4 then np_external_matmul_4 input
    else if t =? 8 then np_external_matmul_8 input
    else
      let out := repeat f0 t in
      let t_ := t / 2 in
      for_range 0 t_ (fun row out =>
        for_range 0 t_ (fun col out =>
          tmp_e <- idx2 (np_m_e P) (2 * row) (2 * col) ;;
          x <- idx input (2 * col) ;;
          o <- idx out (2 * row) ;;
          out <- upd out (2 * row) (fadd o (fmul tmp_e x)) ;;
          tmp_o <- idx2 (np_m_e P) (2 * row + 1) (2 * col + 1) ;;
          x <- idx input (2 * col + 1) ;;
          o <- idx out (2 * row + 1) ;;
          upd out (2 * row + 1) (fadd o (fmul tmp_o x))) out) out.

  (** neptune.rs:219-231 internal_matmul; [zip] stops at the shorter of [out] and [mu] *)
  Definition np_internal_matmul (P : NeptuneParams F) (input : list F) : res (list F) :=
    x0 <- idx input 0 ;;
    let sum := fold_left fadd (skipn 1 input) x0 in
    for_range 0 (Nat.min (length input) (length (np_mu P))) (fun i out =>
      o <- idx out i ;; mu <- idx (np_mu P) i ;;
      upd out i (fadd (fmul o mu) sum)) input.

  (** neptune.rs:23-27 external_round; add_rc (neptune.rs:35-45) is [ModelPoseidon2.add_rc] *)
  Definition np_external_round (P : NeptuneParams F) (r : nat) (input : list F) : res (list F) :=
    output <- np_external_sbox P input ;;
    output <- np_external_matmul P output ;;
    rc <- idx (np_rc P) r ;;
    Ok (add_rc output rc).

  (** neptune.rs:29-33 internal_round *)
  Definition np_internal_round (P : NeptuneParams F) (r : nat) (input : list F) : res (list F) :=
    output <- np_internal_sbox P input ;;
    output <- np_internal_matmul P output ;;
    rc <- idx (np_rc P) r ;;
    Ok (add_rc output rc).

  (** neptune.rs:233-252 permutation *)
  Definition np_permutation (dbg : bool) (P : NeptuneParams F) (input : list F) : res (list F) :=
    assert (length input =? np_t P) ;;
    st <- np_external_matmul P input ;;
    st <- for_range 0 (np_rounds_f_beginning P) (np_external_round P) st ;;
    p_end <- uadd dbg (np_rounds_f_beginning P) (np_rounds_p P) ;;
    st <- for_range (np_rounds_f_beginning P) p_end (np_internal_round P) st ;;
    for_range p_end (np_rounds P) (np_external_round P) st.

  (** neptune.rs:255-264 compress *)
  Definition np_compress (dbg : bool) (P : NeptuneParams F) (input : list F) : res F :=
    a <- idx input 0 ;; b <- idx input 1 ;;
    out <- np_permutation dbg P [a; b; f0; f0] ;;
    idx out 0.

  (** neptune.rs:19-21 get_t *)
  Definition np_get_t (P : NeptuneParams F) : nat := np_t P.
End Neptune.
