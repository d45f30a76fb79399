(** * ModelTests: the unit tests in src/gmimc/gmimc.rs, src/neptune/neptune.rs, src/poseidon/poseidon.rs and src/poseidon2/poseidon2.rs

    A test passes when its model is [Ok].  The draws of a test are a stream [rnd], the draws of the i-th instance of its list
    a stream [rng i] (the instances of GMiMC and Neptune are drawn when first used).
    Simplified: the same test written for several fields is one definition; the expected values of the known-answer
    tests are the numbers of ModelKats instead of hexadecimal strings (from_hex is C43). *)
From Verif Require Import Base Field ModelFields ModelInstances ModelKats ModelPoseidon2 ModelPoseidon ModelRandom ModelGmimc ModelNeptune.

(** gmimc.rs:130 and the same line of every test module *)
Definition TESTRUNS : nat := 5.

Inductive test : Type :=
| ConsistentP2 (l : list p2_instance) | ConsistentPs (l : list ps_instance) | ConsistentGm (l : list gm_instance) | ConsistentNp (l : list np_instance)
| OptPs (l : list ps_instance) | OptGm (l : list gm_instance)
| KatP2 (J : p2_instance) (out : list Z) | KatPs (J : ps_instance) (out : list Z)
| MatmulEqualities (t : nat)
| Input24 (diag : list Z) (mat rc : list (list Z)) (bytes : nat).

Section Tests.
  Context {F : Type} {Fo : FOps F}.

  (** [==] on vectors *)
  Fixpoint vec_eqb (a b : list F) : bool :=
    match a, b with
    | [], [] => true
    | x :: a', y :: b' => feqb x y && vec_eqb a' b'
    | _, _ => false
    end.

  (** gmimc.rs:139-145: the loop that draws [input2] until it differs; [Fuel] when it has not after [fuel] attempts *)
  Fixpoint draw_other (fuel t : nat) (input1 : list F) (rnd : nat -> F) (pos : nat) : res (list F * nat) :=
    match fuel with
    | O => Fuel
    | S fuel' =>
        let '(input2, pos) := random_vec t rnd pos in
        if negb (vec_eqb input1 input2) then Ok (input2, pos) else draw_other fuel' t input1 rnd pos
    end.

  (** gmimc.rs:136-152 consistent_perm, one instance *)
  Definition consistent_perm (fuel t : nat) (perm : list F -> res (list F)) (rnd : nat -> F) (pos : nat) : res nat :=
    for_range 0 TESTRUNS (fun _ pos =>
      let '(input1, pos) := random_vec t rnd pos in
      '(input2, pos) <- draw_other fuel t input1 rnd pos ;;
      perm1 <- perm input1 ;;
      perm2 <- perm input1 ;;
      perm3 <- perm input2 ;;
      assert (vec_eqb perm1 perm2) ;;
      assert (negb (vec_eqb perm1 perm3)) ;;
      Ok pos) pos.

  (** gmimc.rs:159-165 opt_equals_not_opt, one instance *)
  Definition opt_equals_not_opt (t : nat) (perm perm_not_opt : list F -> res (list F)) (rnd : nat -> F) (pos : nat) : res nat :=
    for_range 0 TESTRUNS (fun _ pos =>
      let '(input, pos) := random_vec t rnd pos in
      perm1 <- perm input ;;
      perm2 <- perm_not_opt input ;;
      assert (vec_eqb perm1 perm2) ;;
      Ok pos) pos.

  (** poseidon2.rs:281-298 kats: the input is 0, 1, ..., t - 1, each expected value is compared at its position *)
  Definition kat (t : nat) (perm : list F -> res (list F)) (expected : list Z) : res nat :=
    perm <- perm (map (fun i => f_of_Z (Z.of_nat i)) (seq 0 t)) ;;
    for_list (combine (seq 0 (length expected)) expected) (fun '(i, v) (_ : nat) =>
      a <- idx perm i ;; assert (feqb a (f_of_Z v)) ;; Ok 0) 0.

  (** neptune.rs:278-290 matmul *)
  Definition test_matmul (dbg : bool) (input : list F) (mat : list (list F)) : res (list F) :=
    let t := length mat in
    debug_assert dbg (t =? length input) ;;
    for_range 0 t (fun row out =>
      for_list (firstn t (combine (seq 0 (length input)) input)) (fun '(col, inp) out =>
        tmp <- idx2 mat row col ;;
        x <- idx out row ;;
        upd out row (fadd x (fmul tmp inp))) out)
      (repeat (f_of_Z 0) t).

  (** neptune.rs:292-300 build_mi *)
  Definition build_mi (P : NeptuneParams F) : res (list (list F)) :=
    let t := np_t P in
    for_range 0 t (fun i mi =>
      mu <- idx (np_mu P) i ;;
      mi <- upd2 mi i i mu ;;
      v <- idx2 mi i i ;;
      upd2 mi i i (fadd v (f_of_Z 1))) (repeat (repeat (f_of_Z 1) t) t).

  (** neptune.rs:302-330 matmul_equalities *)
  Definition matmul_equalities (dbg : bool) (fuel : nat) (rng rnd : nat -> F) (t : nat) : res nat :=
    P <- np_new dbg fuel rng t 3 2 1 ;;
    let t := np_t P in
    let me := np_m_e P in
    for_range 0 (Nat.min (length me) t) (fun row (_ : unit) =>          (* 309-317 *)
      matrow <- idx me row ;;
      for_range 0 (Nat.min (length matrow) t) (fun col (_ : unit) =>
        matrowcol <- idx matrow col ;;
        if (row + col) mod 2 =? 0 then assert (negb (feqb matrowcol (f_of_Z 0)))
        else assert (feqb matrowcol (f_of_Z 0))) tt) tt ;;
    mi <- build_mi P ;;
    for_range 0 TESTRUNS (fun _ pos =>                                  (* 320-329 *)
      let '(input, pos) := random_vec t rnd pos in
      external1 <- np_external_matmul P input ;;
      external2 <- test_matmul dbg input me ;;
      assert (vec_eqb external1 external2) ;;
      internal1 <- np_internal_matmul P input ;;
      internal2 <- test_matmul dbg input mi ;;
      assert (vec_eqb internal1 internal2) ;;
      Ok pos) 0.

  (** poseidon2.rs:511-518 input_24_elements *)
  Definition input_24_elements (dbg : bool) (diag : list F) (mat rc : list (list F)) : res nat :=
    P <- p2_new dbg 24 5 8 56 diag mat rc ;;
    let t := p2_get_t P in
    _ <- p2_permutation dbg P (map (fun i => f_of_Z (Z.of_nat i)) (seq 0 t)) ;;
    Ok 0.

  Definition gm_build (rng : nat -> nat -> F) (iJ : nat * gm_instance) : res (GmimcParams F) :=
    let '(i, J) := iJ in gm_new (rng i) (gi_t J) (gi_d J) (gi_rounds J).
  Definition np_build (dbg : bool) (fuel : nat) (rng : nat -> nat -> F) (iJ : nat * np_instance) : res (NeptuneParams F) :=
    let '(i, J) := iJ in np_new dbg fuel (rng i) (ni_t J) (ni_d J) (ni_rf J) (ni_rp J).

  (** A test: the instances are built, then the body runs for each of them.  The result is the number of draws used. *)
  Definition run_test (dbg : bool) (fuel : nat) (rng : nat -> nat -> F) (rnd : nat -> F) (tst : test) : res nat :=
    match tst with
    | ConsistentP2 l =>
        Ps <- mapM (p2_instance_params dbg) l ;;
        for_list Ps (fun P pos => consistent_perm fuel (p2_get_t P) (p2_permutation dbg P) rnd pos) 0
    | ConsistentPs l =>
        Ps <- mapM (ps_instance_params dbg) l ;;
        for_list Ps (fun P pos => consistent_perm fuel (ps_get_t P) (ps_permutation dbg P) rnd pos) 0
    | ConsistentGm l =>
        Ps <- mapM (gm_build rng) (combine (seq 0 (length l)) l) ;;
        for_list Ps (fun P pos => consistent_perm fuel (gm_get_t P) (gm_permutation dbg P) rnd pos) 0
    | ConsistentNp l =>
        Ps <- mapM (np_build dbg fuel rng) (combine (seq 0 (length l)) l) ;;
        for_list Ps (fun P pos => consistent_perm fuel (np_get_t P) (np_permutation dbg P) rnd pos) 0
    | OptPs l =>
        Ps <- mapM (ps_instance_params dbg) l ;;
        for_list Ps (fun P pos => opt_equals_not_opt (ps_get_t P) (ps_permutation dbg P) (ps_permutation_not_opt dbg P) rnd pos) 0
    | OptGm l =>
        Ps <- mapM (gm_build rng) (combine (seq 0 (length l)) l) ;;
        for_list Ps (fun P pos => opt_equals_not_opt (gm_get_t P) (gm_permutation dbg P) (gm_permutation_not_opt dbg P) rnd pos) 0
    | KatP2 J out => P <- p2_instance_params dbg J ;; kat (p2_get_t P) (p2_permutation dbg P) out
    | KatPs J out => P <- ps_instance_params dbg J ;; kat (ps_get_t P) (ps_permutation dbg P) out
    | MatmulEqualities t => matmul_equalities dbg fuel (rng 0) rnd t
    | Input24 diag mat rc bytes =>
        diag <- vec_literal bytes diag ;; mat <- mat_literal bytes mat ;; rc <- mat_literal bytes rc ;;
        input_24_elements dbg diag mat rc
    end.
End Tests.

Definition matmul_tests : list test := map MatmulEqualities [4; 6; 8; 10; 60].

(** Each test module with the modulus of its [type Scalar]; the known-answer tests follow below. *)
Definition test_files : list (Z * list test) := [
  (* gmimc.rs:123-167, 170-214, 217-280, 283-338 *)
  (p_bls12, [ConsistentGm [gm_inst p_bls12 3 5 226]; OptGm [gm_inst p_bls12 3 5 226]]);
  (p_bn256, [ConsistentGm [gm_inst p_bn256 3 5 226]; OptGm [gm_inst p_bn256 3 5 226]]);
  (p_goldilocks, let l := [gm_inst p_goldilocks 8 7 146; gm_inst p_goldilocks 12 7 314; gm_inst p_goldilocks 16 7 546; gm_inst p_goldilocks 20 7 842] in
                 [ConsistentGm l; OptGm l]);
  (p_babybear, let l := [gm_inst p_babybear 16 7 546; gm_inst p_babybear 24 7 1202] in [ConsistentGm l; OptGm l]);
  (* neptune.rs:267-384, 387-498, 501-622, 625-742 *)
  (p_bls12, ConsistentNp [np_inst p_bls12 4 5 6 69; np_inst p_bls12 8 5 6 74] :: matmul_tests);
  (p_bn256, ConsistentNp [np_inst p_bn256 4 5 6 68] :: matmul_tests);
  (p_goldilocks, ConsistentNp [np_inst p_goldilocks 8 7 6 38; np_inst p_goldilocks 12 7 6 42; np_inst p_goldilocks 16 7 6 48; np_inst p_goldilocks 20 7 6 52] :: matmul_tests);
  (p_babybear, ConsistentNp [np_inst p_babybear 16 7 6 34; np_inst p_babybear 24 7 6 43] :: matmul_tests);
  (* poseidon.rs:167-260, 263-325, 329-453, 457-515, 519-600, 604-668 *)
  (p_bls12, let l := [POSEIDON_BLS_2_PARAMS; POSEIDON_BLS_3_PARAMS; POSEIDON_BLS_4_PARAMS; POSEIDON_BLS_8_PARAMS] in [ConsistentPs l; OptPs l]);
  (p_bn256, let l := [POSEIDON_BN_PARAMS] in [ConsistentPs l; OptPs l]);
  (p_goldilocks, let l := [POSEIDON_GOLDILOCKS_8_PARAMS; POSEIDON_GOLDILOCKS_12_PARAMS; POSEIDON_GOLDILOCKS_16_PARAMS; POSEIDON_GOLDILOCKS_20_PARAMS] in
                 [ConsistentPs l; OptPs l]);
  (p_babybear, let l := [POSEIDON_BABYBEAR_16_PARAMS; POSEIDON_BABYBEAR_24_PARAMS] in [ConsistentPs l; OptPs l]);
  (p_pallas, let l := [POSEIDON_PALLAS_3_PARAMS; POSEIDON_PALLAS_4_PARAMS; POSEIDON_PALLAS_8_PARAMS] in [ConsistentPs l; OptPs l]);
  (p_vesta, let l := [POSEIDON_VESTA_PARAMS] in [ConsistentPs l; OptPs l]);
  (* poseidon2.rs:234-300, 304-378, 382-459, 463-519, 523-578, 582-626 *)
  (p_goldilocks, [ConsistentP2 [POSEIDON2_GOLDILOCKS_8_PARAMS; POSEIDON2_GOLDILOCKS_12_PARAMS; POSEIDON2_GOLDILOCKS_16_PARAMS; POSEIDON2_GOLDILOCKS_20_PARAMS]]);
  (p_babybear, [ConsistentP2 [POSEIDON2_BABYBEAR_16_PARAMS; POSEIDON2_BABYBEAR_24_PARAMS]]);
  (p_bls12, [ConsistentP2 [POSEIDON2_BLS_2_PARAMS; POSEIDON2_BLS_3_PARAMS; POSEIDON2_BLS_4_PARAMS; POSEIDON2_BLS_8_PARAMS]]);
  (p_bn256, [ConsistentP2 [POSEIDON2_BN256_PARAMS];
             Input24 (qi_diag POSEIDON2_BN256_PARAMS) (qi_mat POSEIDON2_BN256_PARAMS) (si_rc POSEIDON_BN_PARAMS) (qi_bytes POSEIDON2_BN256_PARAMS)]);
  (p_pallas, [ConsistentP2 [POSEIDON2_PALLAS_3_PARAMS; POSEIDON2_PALLAS_4_PARAMS; POSEIDON2_PALLAS_8_PARAMS]]);
  (p_vesta, [ConsistentP2 [POSEIDON2_VESTA_PARAMS]])] ++
  map (fun k => (qi_p (fst k), [KatP2 (fst k) (snd k)])) p2_kats ++ map (fun k => (si_p (fst k), [KatPs (fst k) (snd k)])) ps_kats.
