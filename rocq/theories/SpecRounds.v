(** * SpecRounds: the documented round-number formulas, over the real numbers *)
From Coq Require Import Reals ZArith.
Local Open Scope R_scope.

Definition Rlog (b x : R) : R := ln x / ln b.
(** n is the ceiling of x *)
Definition is_ceil (x : R) (n : Z) : Prop := IZR n - 1 < x <= IZR n.

(** max(2 + 2 (t + t^2), ceil(2 log_d p) + 2 t): comment in src/gmimc/gmimc_instance_*.rs:10-11 *)
Definition gmimc_rounds_formula (p : Z) (t d : nat) (n : Z) : Prop :=
  exists k, is_ceil (2 * Rlog (INR d) (IZR p)) k /\
            n = Z.max (2 + 2 * (Z.of_nat t + Z.of_nat t * Z.of_nat t)) (k + 2 * Z.of_nat t).

(** ceil(1.125 ceil(log_d(2) (min(kappa, log_2 p) - 6) + 3 + t + log_d t)):
    comment in src/neptune/neptune_instances.rs:10-11 *)
Definition neptune_rounds_formula (kappa : R) (p : Z) (t d : nat) (n : Z) : Prop :=
  exists m, is_ceil (Rlog (INR d) 2 * (Rmin kappa (Rlog 2 (IZR p)) - 6) + 3 + INR t + Rlog (INR d) (INR t)) m /\
            is_ceil (9 / 8 * IZR m) n.
