(** * ModelBenches: the programs in /repo/benches

    A benchmark builds a permutation, fixes an input and calls the same function again and again; the model is one call.
    Simplified: criterion's timing and black_box are left out; the index i as u64 is a natural number. *)
From Verif Require Import Base Field ModelFields ModelInstances ModelPoseidon2 ModelPoseidon ModelRandom ModelGmimc ModelNeptune ModelMerkle.

Inductive bench : Type :=
| PlainPoseidon (J : ps_instance) | PlainPoseidon2 (J : p2_instance) | PlainNeptune (J : np_instance)
| PlainGmimc (J : gm_instance) | PlainGmimcOpt (J : gm_instance)
| MtPoseidon (J : ps_instance) (log_set_size : nat) | MtPoseidon2 (J : p2_instance) (log_set_size : nat)
| MtNeptune (J : np_instance) (log_set_size : nat) | MtGmimc (J : gm_instance) (log_set_size : nat).

Section Run.
  Context {F : Type} {Fo : FOps F}.

  (** benches/plain_bn256.rs:13 (and the same line of every plain benchmark): (0..t).map(|i| Scalar::from(i as u64)).collect() *)
  Definition bench_input (t : nat) : list F := map (fun i => f_of_Z (Z.of_nat i)) (seq 0 t).
  (** benches/mt_bls12.rs:27-29 and mt_bn256.rs:11-13 sample_set, called with 1 << log_set_size *)
  Definition sample_set (set_size : nat) : list F := map (fun i => f_of_Z (Z.of_nat i)) (seq 0 set_size).

  (** Construction and one call. [rng] are the draws of the instance's own XOF reader, see ModelRandom. *)
  Definition run_bench (dbg : bool) (fuel : nat) (rng : nat -> F) (b : bench) : res (list F) :=
    match b with
    | PlainPoseidon J =>                                     (* plain_bn256.rs:10-21 *)
        P <- ps_instance_params dbg J ;; ps_permutation dbg P (bench_input (ps_get_t P))
    | PlainPoseidon2 J =>                                    (* plain_bn256.rs:23-34, poseidon2_different_input_size.rs:10-60 *)
        P <- p2_instance_params dbg J ;; p2_permutation dbg P (bench_input (p2_get_t P))
    | PlainGmimc J =>                                        (* plain_bn256.rs:36-47 *)
        P <- gm_new rng (gi_t J) (gi_d J) (gi_rounds J) ;; gm_permutation_not_opt dbg P (bench_input (gm_get_t P))
    | PlainGmimcOpt J =>                                     (* plain_bn256.rs:49-60 *)
        P <- gm_new rng (gi_t J) (gi_d J) (gi_rounds J) ;; gm_permutation dbg P (bench_input (gm_get_t P))
    | PlainNeptune J =>                                      (* plain_bls12.rs:108-124 *)
        P <- np_new dbg fuel rng (ni_t J) (ni_d J) (ni_rf J) (ni_rp J) ;; np_permutation dbg P (bench_input (np_get_t P))
    | MtPoseidon J k =>                                      (* mt_bls12.rs:31-44 *)
        P <- ps_instance_params dbg J ;; r <- fp_accumulate dbg fuel (ps_compress dbg P) (sample_set (2 ^ k)) ;; Ok [r]
    | MtPoseidon2 J k =>                                     (* mt_bls12.rs:46-59 *)
        P <- p2_instance_params dbg J ;; r <- fp_accumulate dbg fuel (p2_compress dbg P) (sample_set (2 ^ k)) ;; Ok [r]
    | MtNeptune J k =>                                       (* mt_bls12.rs:61-74 *)
        P <- np_new dbg fuel rng (ni_t J) (ni_d J) (ni_rf J) (ni_rp J) ;;
        r <- fp_accumulate dbg fuel (np_compress dbg P) (sample_set (2 ^ k)) ;; Ok [r]
    | MtGmimc J k =>                                         (* mt_bls12.rs:76-89 *)
        P <- gm_new rng (gi_t J) (gi_d J) (gi_rounds J) ;;
        r <- fp_accumulate dbg fuel (gm_compress dbg P) (sample_set (2 ^ k)) ;; Ok [r]
    end.
End Run.

(** Each file with the modulus of its [type Scalar]. *)
Definition bench_files : list (Z * list bench) := [
  (* mt_bls12.rs:25, 91-100 *)
  (p_bls12, [MtPoseidon POSEIDON_BLS_3_PARAMS 20; MtPoseidon2 POSEIDON2_BLS_3_PARAMS 20;
             MtGmimc (gm_inst p_bls12 3 5 226) 20; MtNeptune (np_inst p_bls12 4 5 6 69) 20]);
  (* mt_bn256.rs:9, 60-68 *)
  (p_bn256, [MtPoseidon POSEIDON_BN_PARAMS 20; MtPoseidon2 POSEIDON2_BN256_PARAMS 20; MtNeptune (np_inst p_bn256 4 5 6 68) 20]);
  (* plain_babybear.rs:24, 28-123 *)
  (p_babybear, map PlainPoseidon [POSEIDON_BABYBEAR_16_PARAMS; POSEIDON_BABYBEAR_24_PARAMS] ++
               map PlainPoseidon2 [POSEIDON2_BABYBEAR_16_PARAMS; POSEIDON2_BABYBEAR_24_PARAMS] ++
               map PlainNeptune [np_inst p_babybear 16 7 6 34; np_inst p_babybear 24 7 6 43] ++
               map PlainGmimc [gm_inst p_babybear 16 7 546; gm_inst p_babybear 24 7 1202] ++
               map PlainGmimcOpt [gm_inst p_babybear 16 7 546; gm_inst p_babybear 24 7 1202]);
  (* plain_bls12.rs:26, 29-132 *)
  (p_bls12, map PlainPoseidon [POSEIDON_BLS_2_PARAMS; POSEIDON_BLS_3_PARAMS; POSEIDON_BLS_4_PARAMS; POSEIDON_BLS_8_PARAMS] ++
            map PlainPoseidon2 [POSEIDON2_BLS_2_PARAMS; POSEIDON2_BLS_3_PARAMS; POSEIDON2_BLS_4_PARAMS; POSEIDON2_BLS_8_PARAMS] ++
            map PlainGmimc [gm_inst p_bls12 2 5 224; gm_inst p_bls12 3 5 226; gm_inst p_bls12 4 5 228; gm_inst p_bls12 8 5 236] ++
            map PlainGmimcOpt [gm_inst p_bls12 2 5 224; gm_inst p_bls12 3 5 226; gm_inst p_bls12 4 5 228; gm_inst p_bls12 8 5 236] ++
            map PlainNeptune [np_inst p_bls12 4 5 6 69; np_inst p_bls12 8 5 6 74]);
  (* plain_bn256.rs:7, 10-67 *)
  (p_bn256, [PlainPoseidon POSEIDON_BN_PARAMS; PlainPoseidon2 POSEIDON2_BN256_PARAMS; PlainGmimc (gm_inst p_bn256 3 5 226); PlainGmimcOpt (gm_inst p_bn256 3 5 226)]);
  (* plain_goldilocks.rs:28, 31-132 *)
  (p_goldilocks, map PlainPoseidon [POSEIDON_GOLDILOCKS_8_PARAMS; POSEIDON_GOLDILOCKS_12_PARAMS; POSEIDON_GOLDILOCKS_16_PARAMS; POSEIDON_GOLDILOCKS_20_PARAMS] ++
                 map PlainPoseidon2 [POSEIDON2_GOLDILOCKS_8_PARAMS; POSEIDON2_GOLDILOCKS_12_PARAMS; POSEIDON2_GOLDILOCKS_16_PARAMS; POSEIDON2_GOLDILOCKS_20_PARAMS] ++
                 map PlainNeptune [np_inst p_goldilocks 8 7 6 38; np_inst p_goldilocks 12 7 6 42; np_inst p_goldilocks 16 7 6 48; np_inst p_goldilocks 20 7 6 52] ++
                 map PlainGmimc [gm_inst p_goldilocks 8 7 146; gm_inst p_goldilocks 12 7 314; gm_inst p_goldilocks 16 7 546; gm_inst p_goldilocks 20 7 842] ++
                 map PlainGmimcOpt [gm_inst p_goldilocks 8 7 146; gm_inst p_goldilocks 12 7 314; gm_inst p_goldilocks 16 7 546; gm_inst p_goldilocks 20 7 842]);
  (* plain_pallas.rs:24, 27-126 *)
  (p_pallas, map PlainPoseidon [POSEIDON_PALLAS_3_PARAMS; POSEIDON_PALLAS_4_PARAMS; POSEIDON_PALLAS_8_PARAMS] ++
             map PlainPoseidon2 [POSEIDON2_PALLAS_3_PARAMS; POSEIDON2_PALLAS_4_PARAMS; POSEIDON2_PALLAS_8_PARAMS] ++
             map PlainGmimc [gm_inst p_pallas 3 5 226; gm_inst p_pallas 4 5 228; gm_inst p_pallas 8 5 236] ++
             map PlainGmimcOpt [gm_inst p_pallas 3 5 226; gm_inst p_pallas 4 5 228; gm_inst p_pallas 8 5 236] ++
             map PlainNeptune [np_inst p_pallas 4 5 6 69; np_inst p_pallas 8 5 6 74]);
  (* plain_vesta.rs:7, 10-67 *)
  (p_vesta, [PlainPoseidon POSEIDON_VESTA_PARAMS; PlainPoseidon2 POSEIDON2_VESTA_PARAMS; PlainGmimc (gm_inst p_vesta 3 5 226); PlainGmimcOpt (gm_inst p_vesta 3 5 226)]);
  (* poseidon2_different_input_size.rs:8, 62-67 *)
  (p_goldilocks, map PlainPoseidon2 [POSEIDON2_GOLDILOCKS_8_PARAMS; POSEIDON2_GOLDILOCKS_12_PARAMS; POSEIDON2_GOLDILOCKS_16_PARAMS; POSEIDON2_GOLDILOCKS_20_PARAMS])].
