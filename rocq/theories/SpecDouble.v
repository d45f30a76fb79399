(** * SpecDouble: binary64 numbers and rounding to nearest *)
From Coq Require Import Reals ZArith.
Local Open Scope R_scope.

(** finite binary64 numbers: a 53 bit integer times a power of two *)
Definition double (v : R) : Prop :=
  exists m e : Z, (Z.abs m < 2 ^ 53)%Z /\ (-1074 <= e <= 971)%Z /\ v = IZR m * powerRZ 2 e.
(** v is a binary64 number nearest to x; on ties nothing is assumed *)
Definition nearest (x v : R) : Prop := double v /\ forall w, double w -> Rabs (v - x) <= Rabs (w - x).
