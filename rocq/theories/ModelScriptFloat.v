(** * ModelScriptFloat: the choice of the round numbers with rounding errors

    The same lines of poseidon2_rust_params.sage as in ModelScript.  There all expressions are read over the
    real numbers; here every value that reaches floor or ceil may be off by up to 1/1000, and line 75 multiplies
    binary64 numbers.  The errors of 53 bit arithmetic on these expressions are below 10^-9. *)
From Coq Require Import Reals ZArith List Bool.
From Verif Require Import SpecRounds SpecDouble ModelScript.
Import ListNotations.
Local Open Scope Z_scope.

(** a value of the program for the real number x *)
Definition computed (x v : R) : Prop := (Rabs (v - x) <= 1 / 1000)%R.

(** poseidon2_rust_params.sage:84-106 sat_inequiv_alpha: [ans] is an answer that such a program can give.
    Lines 99-101: a binomial coefficient above the range of binary64 makes binom_log infinite and is replaced. *)
Definition sat_computed (p n t R_F R_P alpha M : Z) (ans : bool) : Prop :=
  exists v1 v2a v2b v3 v4 v5 v6 : R,
  computed (Rlog 2 (IZR p) - (IZR alpha - 1) / 2)%R v1 /\
  computed (Rlog (IZR alpha) 2 * IZR (Z.min M n))%R v2a /\
  computed (Rlog (IZR alpha) (IZR t)) v2b /\
  computed (Rlog (IZR alpha) 2 * Rmin (IZR M) (Rlog 2 (IZR p)) - IZR R_P)%R v3 /\
  computed (IZR t - 1 + Rlog (IZR alpha) 2 * Rmin (IZR M / (IZR t + 1)) (Rlog 2 (IZR p) / 2) - IZR R_P)%R v4 /\
  computed ((IZR t - 2 + IZR M / (2 * Rlog 2 (IZR alpha)) - IZR R_P) / (IZR t - 1))%R v5 /\
  let r_temp := t / 3 in
  let over := (R_F - 1) * t + R_P + r_temp + r_temp * (R_F / 2) + R_P + alpha in
  let under := r_temp * (R_F / 2) + R_P + alpha in
  let binomial := C (Z.to_nat over) (Z.to_nat under) in
  (computed (2 * Rlog 2 binomial)%R v6 \/ (IZR (2 ^ 1023) <= binomial)%R /\ v6 = IZR (2 * (M + 1))) /\
  let R_F_1 := if M <=? Rfloor v1 * (t + 1) then 6 else 10 in
  let R_F_2 := 1 + Rceil v2a + Rceil v2b - R_P in
  let R_F_max := Z.max R_F_1 (Z.max R_F_2 (Z.max (Rceil v3) (Z.max (Rceil v4) (Rceil v5)))) in
  let cost_gb4 := Rceil v6 in
  ans = (R_F_max <=? R_F) && (M <=? cost_gb4).

(** poseidon2_rust_params.sage:75: k is a possible value of int(ceil(float(R_P_t) * 1.075)) *)
Definition scaled (R_P_t k : Z) : Prop :=
  exists c r, nearest (1075 / 1000)%R c /\ nearest (IZR R_P_t * c)%R r /\ k = Rceil r.

(** poseidon2_rust_params.sage:71-81, as ModelScript.search_step, with [scale] for line 75 *)
Definition search_step_fl (sat : Z -> Z -> bool) (scale : Z -> Z) (t : Z) (security_margin : bool) (st : Z * found) (R_F_t : Z) : Z * found :=
  let '(R_P_t, b) := st in
  if Z.even R_F_t then
    if sat R_F_t R_P_t then
      let R_F_t := if security_margin then R_F_t + 2 else R_F_t in
      let R_P_t := if security_margin then scale R_P_t else R_P_t in
      let cost := get_sbox_cost t R_F_t R_P_t in
      let better := match fd_cost b with
                    | None => true
                    | Some m => (cost <? m) || ((cost =? m) && (R_F_t <? fd_max_rf b))
                    end%bool in
      (R_P_t, if better then Found R_P_t R_F_t (Some cost) R_F_t else b)
    else st
  else st.

(** poseidon2_rust_params.sage:58-82 find_FD_round_numbers *)
Definition find_FD_round_numbers_fl (sat : Z -> Z -> bool) (scale : Z -> Z) (t : Z) (security_margin : bool) : Z * Z :=
  let b := fold_left (fun b R_P_t => snd (fold_left (search_step_fl sat scale t security_margin) (range 4 100) (R_P_t, b)))
             (range 1 500) (Found 0 0 None 0) in
  (fd_rf b, fd_rp b).
