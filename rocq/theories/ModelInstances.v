(** * ModelInstances: the published parameter objects of src/poseidon2 and src/poseidon

    Generated by tools/gen_instances.py.  An instance records the modulus of its field, the number of
    bytes of its hexadecimal literals, the first four arguments of [new] and the constants.
    The lazy initialisation of [lazy_static!] is modelled by the value it computes. *)
From Coq Require Import Ascii String.
From Verif Require Import Base Field ModelFields ModelHex SpecHex ModelPoseidon2 ModelPoseidon.
From Verif Require DataP2_babybear DataP2_bls12 DataP2_bn256 DataP2_goldilocks DataP2_pallas DataP2_vesta.
From Verif Require DataPS_babybear DataPS_bls12 DataPS_bn256 DataPS_goldilocks DataPS_pallas DataPS_vesta.

(** the source text of the literal "0x..." with 2n digits *)
Definition literal (n : nat) (z : Z) : string := String "0" (String "x" (numeral lower_digits (2 * n) z)).

Record p2_instance := P2I {
  qi_p : Z; qi_bytes : nat; qi_t : nat; qi_d : nat; qi_rf : nat; qi_rp : nat;
  qi_diag : list Z; qi_mat : list (list Z); qi_rc : list (list Z) }.
Record ps_instance := PSI {
  si_p : Z; si_bytes : nat; si_t : nat; si_d : nat; si_rf : nat; si_rp : nat;
  si_mds : list (list Z); si_rc : list (list Z) }.

Section Instances.
  Context {F : Type} {Fo : FOps F}.
  Definition vec_literal (n : nat) (v : list Z) : res (list F) := mapM (fun z => from_hex (literal n z)) v.
  Definition mat_literal (n : nat) (m : list (list Z)) : res (list (list F)) := mapM (vec_literal n) m.

  (** poseidon2_instance_*.rs: Poseidon2Params::new(t, d, rf, rp, &MAT_DIAGt_M_1, &MAT_INTERNALt, &RCt) *)
  Definition p2_instance_params (dbg : bool) (I : p2_instance) : res (Poseidon2Params F) :=
    diag <- vec_literal (qi_bytes I) (qi_diag I) ;;
    mat <- mat_literal (qi_bytes I) (qi_mat I) ;;
    rc <- mat_literal (qi_bytes I) (qi_rc I) ;;
    p2_new dbg (qi_t I) (qi_d I) (qi_rf I) (qi_rp I) diag mat rc.
  (** poseidon_instance_*.rs: PoseidonParams::new(t, d, rf, rp, &MDSt, &RCt) *)
  Definition ps_instance_params (dbg : bool) (I : ps_instance) : res (PoseidonParams F) :=
    mds <- mat_literal (si_bytes I) (si_mds I) ;;
    rc <- mat_literal (si_bytes I) (si_rc I) ;;
    ps_new dbg (si_t I) (si_d I) (si_rf I) (si_rp I) mds rc.
End Instances.

(** src/poseidon2/poseidon2_instance_babybear.rs:2023-2023 *)
Definition POSEIDON2_BABYBEAR_16_PARAMS : p2_instance :=
  P2I p_babybear 4 16 7 8 13 DataP2_babybear.P2_babybear_MAT_DIAG16_M_1 DataP2_babybear.P2_babybear_MAT_INTERNAL16 DataP2_babybear.P2_babybear_RC16.
(** src/poseidon2/poseidon2_instance_babybear.rs:2025-2025 *)
Definition POSEIDON2_BABYBEAR_24_PARAMS : p2_instance :=
  P2I p_babybear 4 24 7 8 21 DataP2_babybear.P2_babybear_MAT_DIAG24_M_1 DataP2_babybear.P2_babybear_MAT_INTERNAL24 DataP2_babybear.P2_babybear_RC24.
(** src/poseidon2/poseidon2_instance_bls12.rs:1529-1529 *)
Definition POSEIDON2_BLS_2_PARAMS : p2_instance :=
  P2I p_bls12 32 2 5 8 56 DataP2_bls12.P2_bls12_MAT_DIAG2_M_1 DataP2_bls12.P2_bls12_MAT_INTERNAL2 DataP2_bls12.P2_bls12_RC2.
(** src/poseidon2/poseidon2_instance_bls12.rs:1531-1531 *)
Definition POSEIDON2_BLS_3_PARAMS : p2_instance :=
  P2I p_bls12 32 3 5 8 56 DataP2_bls12.P2_bls12_MAT_DIAG3_M_1 DataP2_bls12.P2_bls12_MAT_INTERNAL3 DataP2_bls12.P2_bls12_RC3.
(** src/poseidon2/poseidon2_instance_bls12.rs:1533-1533 *)
Definition POSEIDON2_BLS_4_PARAMS : p2_instance :=
  P2I p_bls12 32 4 5 8 56 DataP2_bls12.P2_bls12_MAT_DIAG4_M_1 DataP2_bls12.P2_bls12_MAT_INTERNAL4 DataP2_bls12.P2_bls12_RC4.
(** src/poseidon2/poseidon2_instance_bls12.rs:1535-1535 *)
Definition POSEIDON2_BLS_8_PARAMS : p2_instance :=
  P2I p_bls12 32 8 5 8 57 DataP2_bls12.P2_bls12_MAT_DIAG8_M_1 DataP2_bls12.P2_bls12_MAT_INTERNAL8 DataP2_bls12.P2_bls12_RC8.
(** src/poseidon2/poseidon2_instance_bn256.rs:293-293 *)
Definition POSEIDON2_BN256_PARAMS : p2_instance :=
  P2I p_bn256 32 3 5 8 56 DataP2_bn256.P2_bn256_MAT_DIAG3_M_1 DataP2_bn256.P2_bn256_MAT_INTERNAL3 DataP2_bn256.P2_bn256_RC3.
(** src/poseidon2/poseidon2_instance_goldilocks.rs:2823-2823 *)
Definition POSEIDON2_GOLDILOCKS_8_PARAMS : p2_instance :=
  P2I p_goldilocks 8 8 7 8 22 DataP2_goldilocks.P2_goldilocks_MAT_DIAG8_M_1 DataP2_goldilocks.P2_goldilocks_MAT_INTERNAL8 DataP2_goldilocks.P2_goldilocks_RC8.
(** src/poseidon2/poseidon2_instance_goldilocks.rs:2826-2826 *)
Definition POSEIDON2_GOLDILOCKS_12_PARAMS : p2_instance :=
  P2I p_goldilocks 8 12 7 8 22 DataP2_goldilocks.P2_goldilocks_MAT_DIAG12_M_1 DataP2_goldilocks.P2_goldilocks_MAT_INTERNAL12 DataP2_goldilocks.P2_goldilocks_RC12.
(** src/poseidon2/poseidon2_instance_goldilocks.rs:2829-2829 *)
Definition POSEIDON2_GOLDILOCKS_16_PARAMS : p2_instance :=
  P2I p_goldilocks 8 16 7 8 22 DataP2_goldilocks.P2_goldilocks_MAT_DIAG16_M_1 DataP2_goldilocks.P2_goldilocks_MAT_INTERNAL16 DataP2_goldilocks.P2_goldilocks_RC16.
(** src/poseidon2/poseidon2_instance_goldilocks.rs:2832-2832 *)
Definition POSEIDON2_GOLDILOCKS_20_PARAMS : p2_instance :=
  P2I p_goldilocks 8 20 7 8 22 DataP2_goldilocks.P2_goldilocks_MAT_DIAG20_M_1 DataP2_goldilocks.P2_goldilocks_MAT_INTERNAL20 DataP2_goldilocks.P2_goldilocks_RC20.
(** src/poseidon2/poseidon2_instance_pallas.rs:1318-1318 *)
Definition POSEIDON2_PALLAS_3_PARAMS : p2_instance :=
  P2I p_pallas 32 3 5 8 56 DataP2_pallas.P2_pallas_MAT_DIAG3_M_1 DataP2_pallas.P2_pallas_MAT_INTERNAL3 DataP2_pallas.P2_pallas_RC3.
(** src/poseidon2/poseidon2_instance_pallas.rs:1320-1320 *)
Definition POSEIDON2_PALLAS_4_PARAMS : p2_instance :=
  P2I p_pallas 32 4 5 8 56 DataP2_pallas.P2_pallas_MAT_DIAG4_M_1 DataP2_pallas.P2_pallas_MAT_INTERNAL4 DataP2_pallas.P2_pallas_RC4.
(** src/poseidon2/poseidon2_instance_pallas.rs:1322-1322 *)
Definition POSEIDON2_PALLAS_8_PARAMS : p2_instance :=
  P2I p_pallas 32 8 5 8 57 DataP2_pallas.P2_pallas_MAT_DIAG8_M_1 DataP2_pallas.P2_pallas_MAT_INTERNAL8 DataP2_pallas.P2_pallas_RC8.
(** src/poseidon2/poseidon2_instance_vesta.rs:291-291 *)
Definition POSEIDON2_VESTA_PARAMS : p2_instance :=
  P2I p_vesta 32 3 5 8 56 DataP2_vesta.P2_vesta_MAT_DIAG3_M_1 DataP2_vesta.P2_vesta_MAT_INTERNAL3 DataP2_vesta.P2_vesta_RC3.
Definition p2_instances : list p2_instance := [
  POSEIDON2_BABYBEAR_16_PARAMS;
  POSEIDON2_BABYBEAR_24_PARAMS;
  POSEIDON2_BLS_2_PARAMS;
  POSEIDON2_BLS_3_PARAMS;
  POSEIDON2_BLS_4_PARAMS;
  POSEIDON2_BLS_8_PARAMS;
  POSEIDON2_BN256_PARAMS;
  POSEIDON2_GOLDILOCKS_8_PARAMS;
  POSEIDON2_GOLDILOCKS_12_PARAMS;
  POSEIDON2_GOLDILOCKS_16_PARAMS;
  POSEIDON2_GOLDILOCKS_20_PARAMS;
  POSEIDON2_PALLAS_3_PARAMS;
  POSEIDON2_PALLAS_4_PARAMS;
  POSEIDON2_PALLAS_8_PARAMS;
  POSEIDON2_VESTA_PARAMS].

(** src/poseidon/poseidon_instance_babybear.rs:1977-1977 *)
Definition POSEIDON_BABYBEAR_16_PARAMS : ps_instance :=
  PSI p_babybear 4 16 7 8 13 DataPS_babybear.PS_babybear_MDS16 DataPS_babybear.PS_babybear_RC16.
(** src/poseidon/poseidon_instance_babybear.rs:1979-1979 *)
Definition POSEIDON_BABYBEAR_24_PARAMS : ps_instance :=
  PSI p_babybear 4 24 7 8 21 DataPS_babybear.PS_babybear_MDS24 DataPS_babybear.PS_babybear_RC24.
(** src/poseidon/poseidon_instance_bls12.rs:1500-1501 *)
Definition POSEIDON_BLS_2_PARAMS : ps_instance :=
  PSI p_bls12 32 2 5 8 56 DataPS_bls12.PS_bls12_MDS2 DataPS_bls12.PS_bls12_RC2.
(** src/poseidon/poseidon_instance_bls12.rs:1504-1505 *)
Definition POSEIDON_BLS_3_PARAMS : ps_instance :=
  PSI p_bls12 32 3 5 8 56 DataPS_bls12.PS_bls12_MDS3 DataPS_bls12.PS_bls12_RC3.
(** src/poseidon/poseidon_instance_bls12.rs:1508-1509 *)
Definition POSEIDON_BLS_4_PARAMS : ps_instance :=
  PSI p_bls12 32 4 5 8 56 DataPS_bls12.PS_bls12_MDS4 DataPS_bls12.PS_bls12_RC4.
(** src/poseidon/poseidon_instance_bls12.rs:1512-1513 *)
Definition POSEIDON_BLS_8_PARAMS : ps_instance :=
  PSI p_bls12 32 8 5 8 57 DataPS_bls12.PS_bls12_MDS8 DataPS_bls12.PS_bls12_RC8.
(** src/poseidon/poseidon_instance_bn256.rs:286-288 *)
Definition POSEIDON_BN_PARAMS : ps_instance :=
  PSI p_bn256 32 3 5 8 56 DataPS_bn256.PS_bn256_MDS3 DataPS_bn256.PS_bn256_RC3.
(** src/poseidon/poseidon_instance_goldilocks.rs:2755-2755 *)
Definition POSEIDON_GOLDILOCKS_8_PARAMS : ps_instance :=
  PSI p_goldilocks 8 8 7 8 22 DataPS_goldilocks.PS_goldilocks_MDS8 DataPS_goldilocks.PS_goldilocks_RC8.
(** src/poseidon/poseidon_instance_goldilocks.rs:2758-2758 *)
Definition POSEIDON_GOLDILOCKS_12_PARAMS : ps_instance :=
  PSI p_goldilocks 8 12 7 8 22 DataPS_goldilocks.PS_goldilocks_MDS12 DataPS_goldilocks.PS_goldilocks_RC12.
(** src/poseidon/poseidon_instance_goldilocks.rs:2761-2761 *)
Definition POSEIDON_GOLDILOCKS_16_PARAMS : ps_instance :=
  PSI p_goldilocks 8 16 7 8 22 DataPS_goldilocks.PS_goldilocks_MDS16 DataPS_goldilocks.PS_goldilocks_RC16.
(** src/poseidon/poseidon_instance_goldilocks.rs:2764-2764 *)
Definition POSEIDON_GOLDILOCKS_20_PARAMS : ps_instance :=
  PSI p_goldilocks 8 20 7 8 22 DataPS_goldilocks.PS_goldilocks_MDS20 DataPS_goldilocks.PS_goldilocks_RC20.
(** src/poseidon/poseidon_instance_pallas.rs:1295-1297 *)
Definition POSEIDON_PALLAS_3_PARAMS : ps_instance :=
  PSI p_pallas 32 3 5 8 56 DataPS_pallas.PS_pallas_MDS3 DataPS_pallas.PS_pallas_RC3.
(** src/poseidon/poseidon_instance_pallas.rs:1299-1301 *)
Definition POSEIDON_PALLAS_4_PARAMS : ps_instance :=
  PSI p_pallas 32 4 5 8 56 DataPS_pallas.PS_pallas_MDS4 DataPS_pallas.PS_pallas_RC4.
(** src/poseidon/poseidon_instance_pallas.rs:1303-1305 *)
Definition POSEIDON_PALLAS_8_PARAMS : ps_instance :=
  PSI p_pallas 32 8 5 8 57 DataPS_pallas.PS_pallas_MDS8 DataPS_pallas.PS_pallas_RC8.
(** src/poseidon/poseidon_instance_vesta.rs:286-288 *)
Definition POSEIDON_VESTA_PARAMS : ps_instance :=
  PSI p_vesta 32 3 5 8 56 DataPS_vesta.PS_vesta_MDS3 DataPS_vesta.PS_vesta_RC3.
Definition ps_instances : list ps_instance := [
  POSEIDON_BABYBEAR_16_PARAMS;
  POSEIDON_BABYBEAR_24_PARAMS;
  POSEIDON_BLS_2_PARAMS;
  POSEIDON_BLS_3_PARAMS;
  POSEIDON_BLS_4_PARAMS;
  POSEIDON_BLS_8_PARAMS;
  POSEIDON_BN_PARAMS;
  POSEIDON_GOLDILOCKS_8_PARAMS;
  POSEIDON_GOLDILOCKS_12_PARAMS;
  POSEIDON_GOLDILOCKS_16_PARAMS;
  POSEIDON_GOLDILOCKS_20_PARAMS;
  POSEIDON_PALLAS_3_PARAMS;
  POSEIDON_PALLAS_4_PARAMS;
  POSEIDON_PALLAS_8_PARAMS;
  POSEIDON_VESTA_PARAMS].
