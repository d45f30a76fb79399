(** * ModelFields: the constants declared in src/fields/*.rs and the shipped GMiMC and Neptune instances *)
From Verif Require Import Base.
Local Open Scope Z_scope.

(** src/fields/babybear.rs:5-6 *)
Definition p_babybear : Z := 2013265921.
Definition g_babybear : Z := 31.
(** src/fields/bls12.rs:5-6 *)
Definition p_bls12 : Z := 52435875175126190479447740508185965837690552500527637822603658699938581184513.
Definition g_bls12 : Z := 7.
(** src/fields/bn256.rs:13-14 (the two configurations of the cfg_if declare the same values) *)
Definition p_bn256 : Z := 21888242871839275222246405745257275088548364400416034343698204186575808495617.
Definition g_bn256 : Z := 7.
(** src/fields/goldilocks.rs:5-6 *)
Definition p_goldilocks : Z := 18446744069414584321.
Definition g_goldilocks : Z := 7.
(** src/fields/pallas.rs:5-6 *)
Definition p_pallas : Z := 28948022309329048855892746252171976963363056481941560715954676764349967630337.
Definition g_pallas : Z := 5.
(** src/fields/vesta.rs:5-6 *)
Definition p_vesta : Z := 28948022309329048855892746252171976963363056481941647379679742748393362948097.
Definition g_vesta : Z := 5.

(** Arguments (t, d, rounds) of the shipped GMiMC instances with the modulus of their field. *)
Record gm_instance := { gi_p : Z; gi_t : nat; gi_d : nat; gi_rounds : nat }.
Definition gm_inst p t d r := {| gi_p := p; gi_t := t; gi_d := d; gi_rounds := r |}.

(** src/gmimc/gmimc_instance_babybear.rs:12-15 *)
Definition gm_instances_babybear : list gm_instance := [
  gm_inst p_babybear 16 7 546 (* GMIMC_BABYBEAR_16_PARAMS *);
  gm_inst p_babybear 24 7 1202 (* GMIMC_BABYBEAR_24_PARAMS *)].
(** src/gmimc/gmimc_instance_bls12.rs:12-31 *)
Definition gm_instances_bls12 : list gm_instance := [
  gm_inst p_bls12 2 5 224 (* GMIMC_BLS_2_PARAMS *);
  gm_inst p_bls12 3 5 226 (* GMIMC_BLS_3_PARAMS *);
  gm_inst p_bls12 4 5 228 (* GMIMC_BLS_4_PARAMS *);
  gm_inst p_bls12 5 5 230 (* GMIMC_BLS_5_PARAMS *);
  gm_inst p_bls12 8 5 236 (* GMIMC_BLS_8_PARAMS *);
  gm_inst p_bls12 9 5 238 (* GMIMC_BLS_9_PARAMS *);
  gm_inst p_bls12 12 5 314 (* GMIMC_BLS_12_PARAMS *);
  gm_inst p_bls12 16 5 546 (* GMIMC_BLS_16_PARAMS *);
  gm_inst p_bls12 20 5 842 (* GMIMC_BLS_20_PARAMS *);
  gm_inst p_bls12 24 5 1202 (* GMIMC_BLS_24_PARAMS *)].
(** src/gmimc/gmimc_instance_bn256.rs:12-29 *)
Definition gm_instances_bn256 : list gm_instance := [
  gm_inst p_bn256 3 5 226 (* GMIMC_BN_3_PARAMS *);
  gm_inst p_bn256 4 5 228 (* GMIMC_BN_4_PARAMS *);
  gm_inst p_bn256 5 5 230 (* GMIMC_BN_5_PARAMS *);
  gm_inst p_bn256 8 5 236 (* GMIMC_BN_8_PARAMS *);
  gm_inst p_bn256 9 5 238 (* GMIMC_BN_9_PARAMS *);
  gm_inst p_bn256 12 5 314 (* GMIMC_BN_12_PARAMS *);
  gm_inst p_bn256 16 5 546 (* GMIMC_BN_16_PARAMS *);
  gm_inst p_bn256 20 5 842 (* GMIMC_BN_20_PARAMS *);
  gm_inst p_bn256 24 5 1202 (* GMIMC_BN_24_PARAMS *)].
(** src/gmimc/gmimc_instance_goldilocks.rs:12-19 *)
Definition gm_instances_goldilocks : list gm_instance := [
  gm_inst p_goldilocks 8 7 146 (* GMIMC_GOLDILOCKS_8_PARAMS *);
  gm_inst p_goldilocks 12 7 314 (* GMIMC_GOLDILOCKS_12_PARAMS *);
  gm_inst p_goldilocks 16 7 546 (* GMIMC_GOLDILOCKS_16_PARAMS *);
  gm_inst p_goldilocks 20 7 842 (* GMIMC_GOLDILOCKS_20_PARAMS *)].
(** src/gmimc/gmimc_instance_pallas.rs:12-29 *)
Definition gm_instances_pallas : list gm_instance := [
  gm_inst p_pallas 3 5 226 (* GMIMC_PALLAS_3_PARAMS *);
  gm_inst p_pallas 4 5 228 (* GMIMC_PALLAS_4_PARAMS *);
  gm_inst p_pallas 5 5 230 (* GMIMC_PALLAS_5_PARAMS *);
  gm_inst p_pallas 8 5 236 (* GMIMC_PALLAS_8_PARAMS *);
  gm_inst p_pallas 9 5 238 (* GMIMC_PALLAS_9_PARAMS *);
  gm_inst p_pallas 12 5 314 (* GMIMC_PALLAS_12_PARAMS *);
  gm_inst p_pallas 16 5 546 (* GMIMC_PALLAS_16_PARAMS *);
  gm_inst p_pallas 20 5 842 (* GMIMC_PALLAS_20_PARAMS *);
  gm_inst p_pallas 24 5 1202 (* GMIMC_PALLAS_24_PARAMS *)].
(** src/gmimc/gmimc_instance_vesta.rs:12-29 *)
Definition gm_instances_vesta : list gm_instance := [
  gm_inst p_vesta 3 5 226 (* GMIMC_VESTA_3_PARAMS *);
  gm_inst p_vesta 4 5 228 (* GMIMC_VESTA_4_PARAMS *);
  gm_inst p_vesta 5 5 230 (* GMIMC_VESTA_5_PARAMS *);
  gm_inst p_vesta 8 5 236 (* GMIMC_VESTA_8_PARAMS *);
  gm_inst p_vesta 9 5 238 (* GMIMC_VESTA_9_PARAMS *);
  gm_inst p_vesta 12 5 314 (* GMIMC_VESTA_12_PARAMS *);
  gm_inst p_vesta 16 5 546 (* GMIMC_VESTA_16_PARAMS *);
  gm_inst p_vesta 20 5 842 (* GMIMC_VESTA_20_PARAMS *);
  gm_inst p_vesta 24 5 1202 (* GMIMC_VESTA_24_PARAMS *)].
Definition gm_instances : list gm_instance :=
  gm_instances_babybear ++ gm_instances_bls12 ++ gm_instances_bn256 ++ gm_instances_goldilocks ++ gm_instances_pallas ++ gm_instances_vesta.

(** Arguments (t, d, rounds_f, rounds_p) of the shipped Neptune instances with the modulus of their field. *)
Record np_instance := { ni_p : Z; ni_t : nat; ni_d : nat; ni_rf : nat; ni_rp : nat }.
Definition np_inst p t d rf rp := {| ni_p := p; ni_t := t; ni_d := d; ni_rf := rf; ni_rp := rp |}.
(** src/neptune/neptune_instances.rs:13-29 *)
Definition np_instances : list np_instance := [
  np_inst p_bn256 4 5 6 68 (* NEPTUNE_BN_PARAMS *);
  np_inst p_bls12 4 5 6 69 (* NEPTUNE_BLS_4_PARAMS *);
  np_inst p_bls12 8 5 6 74 (* NEPTUNE_BLS_8_PARAMS *);
  np_inst p_goldilocks 8 7 6 38 (* NEPTUNE_GOLDILOCKS_8_PARAMS *);
  np_inst p_goldilocks 12 7 6 42 (* NEPTUNE_GOLDILOCKS_12_PARAMS *);
  np_inst p_goldilocks 16 7 6 48 (* NEPTUNE_GOLDILOCKS_16_PARAMS *);
  np_inst p_goldilocks 20 7 6 52 (* NEPTUNE_GOLDILOCKS_20_PARAMS *);
  np_inst p_babybear 16 7 6 34 (* NEPTUNE_BABYBEAR_16_PARAMS *);
  np_inst p_babybear 24 7 6 43 (* NEPTUNE_BABYBEAR_24_PARAMS *);
  np_inst p_pallas 4 5 6 69 (* NEPTUNE_PALLAS_4_PARAMS *);
  np_inst p_pallas 8 5 6 74 (* NEPTUNE_PALLAS_8_PARAMS *);
  np_inst p_vesta 4 5 6 68 (* NEPTUNE_VESTA_PARAMS *)].
