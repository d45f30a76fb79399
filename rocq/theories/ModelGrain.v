(** * ModelGrain: the constant generator of poseidon2_rust_params.sage

    The 80-bit register [bit_sequence] is a list of booleans.  Unbounded loops take fuel ([Fuel] when it runs out).
    Only the branch for prime fields (FIELD = 1) is modelled. *)
From Verif Require Import Base Field.

Section Grain.
  (** poseidon2_rust_params.sage:133 (repeated in the generator): the feedback bit *)
  Definition grain_bit (s : list bool) : bool :=
    xorb (nth 62 s false) (xorb (nth 51 s false) (xorb (nth 38 s false) (xorb (nth 23 s false) (xorb (nth 13 s false) (nth 0 s false))))).
  (** poseidon2_rust_params.sage:134-135: pop(0), append(new_bit) *)
  Definition grain_step (s : list bool) : bool * list bool := (grain_bit s, tl s ++ [grain_bit s]).

  (** poseidon2_rust_params.sage:132-135: the discarded steps *)
  Fixpoint grain_warm (n : nat) (s : list bool) : list bool :=
    match n with O => s | S m => grain_warm m (snd (grain_step s)) end.

  (** poseidon2_rust_params.sage:141-147: while new_bit == 0: two steps *)
  Fixpoint grain_skip (fuel : nat) (new_bit : bool) (s : list bool) : res (list bool) :=
    if new_bit then Ok s else
    match fuel with
    | O => Fuel
    | S f => let s := snd (grain_step s) in let '(new_bit, s) := grain_step s in grain_skip f new_bit s
    end.
  (** poseidon2_rust_params.sage:137-151: one value of the generator *)
  Definition grain_next (fuel : nat) (s : list bool) : res (bool * list bool) :=
    let '(new_bit, s) := grain_step s in
    s <- grain_skip fuel new_bit s ;;
    Ok (grain_step s).

  (** poseidon2_rust_params.sage:155: [next(grain_gen) for i in range(0, num_bits)] *)
  Fixpoint grain_bits (fuel num : nat) (s : list bool) : res (list bool * list bool) :=
    match num with
    | O => Ok ([], s)
    | S m => '(b, s) <- grain_next fuel s ;; '(l, s) <- grain_bits fuel m s ;; Ok (b :: l, s)
    end.
  (** poseidon2_rust_params.sage:154-158: the bits read as a binary number, most significant first *)
  Definition bits_to_Z (l : list bool) : Z := fold_left (fun v (b : bool) => (2 * v + if b then 1 else 0)%Z) l 0%Z.
  Definition grain_random_bits (fuel num : nat) (s : list bool) : res (Z * list bool) :=
    '(l, s) <- grain_bits fuel num s ;; Ok (bits_to_Z l, s).

  (** poseidon2_rust_params.sage:162: bin(v)[2:].zfill(w), for v < 2^w *)
  Definition zfill (w v : nat) : list bool := map (fun i => Nat.testbit v (w - 1 - i)) (seq 0 w).
  (** poseidon2_rust_params.sage:160-171 init_generator *)
  Definition init_generator (field sbox n t rf rp : nat) : list bool :=
    zfill 2 field ++ zfill 4 sbox ++ zfill 12 n ++ zfill 12 t ++ zfill 10 rf ++ zfill 10 rp ++ repeat true 30.
  (** poseidon2_rust_params.sage:131-135: the register when the first value is produced *)
  Definition grain_start (field sbox n t rf rp : nat) : list bool := grain_warm 160 (init_generator field sbox n t rf rp).

  (** poseidon2_rust_params.sage:184-187: draw until below the prime *)
  Fixpoint draw_below (fuel tries n : nat) (p : Z) (s : list bool) : res (Z * list bool) :=
    match tries with
    | O => Fuel
    | S m => '(v, s) <- grain_random_bits fuel n s ;; if (p <=? v)%Z then draw_below fuel m n p s else Ok (v, s)
    end.
  (** poseidon2_rust_params.sage:173-192 generate_constants, with num_constants as in line 176 (Poseidon2) *)
  Definition generate_constants (fuel n t rf rp : nat) (p : Z) (s : list bool) : res (list Z * list bool) :=
    for_range 0 (rf * t + rp) (fun i '(rc, s) =>
      '(v, s) <- draw_below fuel fuel n p s ;;
      let rc := rc ++ [v] in
      let rc := if (rf / 2 * t <=? i) && (i <? rf / 2 * t + rp) then rc ++ repeat 0%Z (t - 1) else rc in
      Ok (rc, s)) ([], s).
  (** the variant of line 175 (Poseidon): (R_F + R_P) * t constants, none of them replaced by zeros *)
  Definition generate_constants_poseidon (fuel n t rf rp : nat) (p : Z) (s : list bool) : res (list Z * list bool) :=
    for_range 0 ((rf + rp) * t) (fun i '(rc, s) =>
      '(v, s) <- draw_below fuel fuel n p s ;;
      Ok (rc ++ [v], s)) ([], s).

  (** [grain_random_bits(n) for _ in range(0, k)], as in poseidon2_rust_params.sage:210 and 446 *)
  Fixpoint grain_list (fuel n k : nat) (s : list bool) : res (list Z * list bool) :=
    match k with
    | O => Ok ([], s)
    | S m => '(v, s) <- grain_random_bits fuel n s ;; '(l, s) <- grain_list fuel n m s ;; Ok (v :: l, s)
    end.
End Grain.

Section GrainField.
  Context {F : Type} {Fo : FOps F}.

  (** poseidon2_rust_params.sage:433-456 generate_matrix_partial for t >= 4: diagonals are drawn until the
      matrix passes [check_minpoly_condition]; here the number of rejected diagonals is a parameter. *)
  Fixpoint grain_diagonal (fuel n t rejected : nat) (s : list bool) : res (list F * list bool) :=
    '(l, s) <- grain_list fuel n t s ;;
    match rejected with
    | O => Ok (map f_of_Z l, s)
    | S m => grain_diagonal fuel n t m s
    end.

  Definition has_duplicates (l : list F) : bool :=
    negb (forallb (fun i => forallb (fun j => (i =? j) || negb (feqb (nth i l f0) (nth j l f0))) (seq 0 (length l))) (seq 0 (length l))).

  (** poseidon2_rust_params.sage:211-212: resample while there are duplicates *)
  Fixpoint distinct_list (fuel tries n k : nat) (s : list bool) : res (list F * list bool) :=
    match tries with
    | O => Fuel
    | S m =>
      '(l, s) <- grain_list fuel n k s ;;
      let l := map f_of_Z l in
      if has_duplicates l then distinct_list fuel m n k s else Ok (l, s)
    end.
  (** poseidon2_rust_params.sage:204-226 create_mds_p *)
  Fixpoint create_mds_p (fuel tries n t : nat) (s : list bool) : res (list (list F) * list bool) :=
    match tries with
    | O => Fuel
    | S m =>
      '(rand_list, s) <- distinct_list fuel fuel n (2 * t) s ;;
      let xs := firstn t rand_list in
      let ys := skipn t rand_list in
      let flag := forallb (fun i => forallb (fun j => negb (feqb (fadd (nth i xs f0) (nth j ys f0)) f0)) (seq 0 t)) (seq 0 t) in
      if flag
      then Ok (map (fun i => map (fun j => finv (fadd (nth i xs f0) (nth j ys f0))) (seq 0 t)) (seq 0 t), s)
      else create_mds_p fuel m n t s
    end.
End GrainField.
