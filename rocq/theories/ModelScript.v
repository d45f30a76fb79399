(** * ModelScript: the choice of the round numbers in poseidon2_rust_params.sage

    The script computes with floating point numbers; here the same expressions are read over the real
    numbers, and 1.075 as the rational 1075/1000. *)
From Coq Require Import Reals ZArith List.
From Verif Require Import SpecRounds.
Import ListNotations.
Local Open Scope Z_scope.

(** floor and ceil of Python's math *)
Definition Rfloor (x : R) : Z := Int_part x.
Definition Rceil (x : R) : Z := - Int_part (- x).

(** poseidon2_rust_params.sage:84-106 sat_inequiv_alpha, with FIELD_SIZE = n (line 21) and alpha > 0.
    R_F_t is even where the function is called (line 71), so R_F / 2.0 is an integer. *)
Definition sat_inequiv_alpha (p n t R_F R_P alpha M : Z) : Prop :=
  let R_F_1 := if M <=? Rfloor (Rlog 2 (IZR p) - (IZR alpha - 1) / 2)%R * (t + 1) then 6 else 10 in
  let R_F_2 := 1 + Rceil (Rlog (IZR alpha) 2 * IZR (Z.min M n))%R + Rceil (Rlog (IZR alpha) (IZR t)) - R_P in
  let R_F_3 := (Rlog (IZR alpha) 2 * Rmin (IZR M) (Rlog 2 (IZR p)) - IZR R_P)%R in
  let R_F_4 := (IZR t - 1 + Rlog (IZR alpha) 2 * Rmin (IZR M / (IZR t + 1)) (Rlog 2 (IZR p) / 2) - IZR R_P)%R in
  let R_F_5 := ((IZR t - 2 + IZR M / (2 * Rlog 2 (IZR alpha)) - IZR R_P) / (IZR t - 1))%R in
  let R_F_max := Z.max R_F_1 (Z.max R_F_2 (Z.max (Rceil R_F_3) (Z.max (Rceil R_F_4) (Rceil R_F_5)))) in
  let r_temp := t / 3 in
  let over := (R_F - 1) * t + R_P + r_temp + r_temp * (R_F / 2) + R_P + alpha in
  let under := r_temp * (R_F / 2) + R_P + alpha in
  let cost_gb4 := Rceil (2 * Rlog 2 (C (Z.to_nat over) (Z.to_nat under)))%R in
  R_F_max <= R_F /\ M <= cost_gb4.

(** range(a, b) *)
Definition range (a b : nat) : list Z := map Z.of_nat (seq a (b - a)).

(** poseidon2_rust_params.sage:32-33 get_sbox_cost *)
Definition get_sbox_cost (t R_F R_P : Z) : Z := t * R_F + R_P.

(** R_P, R_F, min_cost (None: infinity), max_cost_rf *)
Record found := Found { fd_rp : Z; fd_rf : Z; fd_cost : option Z; fd_max_rf : Z }.

(** poseidon2_rust_params.sage:71-81, the body of the inner loop.  The assignment to R_P_t (line 75) stays
    in effect for the following values of R_F_t; the one to R_F_t does not. *)
Definition search_step (sat : Z -> Z -> bool) (t : Z) (security_margin : bool) (st : Z * found) (R_F_t : Z) : Z * found :=
  let '(R_P_t, b) := st in
  if Z.even R_F_t then
    if sat R_F_t R_P_t then
      let R_F_t := if security_margin then R_F_t + 2 else R_F_t in
      let R_P_t := if security_margin then (R_P_t * 1075 + 999) / 1000 else R_P_t in
      let cost := get_sbox_cost t R_F_t R_P_t in
      let better := match fd_cost b with
                    | None => true
                    | Some m => (cost <? m) || ((cost =? m) && (R_F_t <? fd_max_rf b))
                    end%bool in
      (R_P_t, if better then Found R_P_t R_F_t (Some cost) R_F_t else b)
    else st
  else st.

(** poseidon2_rust_params.sage:58-82 find_FD_round_numbers; [sat] decides the inequalities *)
Definition find_FD_round_numbers (sat : Z -> Z -> bool) (t : Z) (security_margin : bool) : Z * Z :=
  let b := fold_left (fun b R_P_t => snd (fold_left (search_step sat t security_margin) (range 4 100) (R_P_t, b)))
             (range 1 500) (Found 0 0 None 0) in
  (fd_rf b, fd_rp b).

(** poseidon2_rust_params.sage:35-37 get_size_cost *)
Definition get_size_cost (t R_F R_P N : Z) : Z :=
  let n := Rceil (IZR N / IZR t)%R in
  N * R_F + n * R_P.

(** poseidon2_rust_params.sage:39-56 poseidon_calc_final_numbers_fixed; [n] is the value of ceil(log(p, 2)) (line 41).
    The result is [R_F, R_P, min_sbox_cost, min_size_cost]. *)
Definition poseidon_calc_final_numbers_fixed (sat : Z -> Z -> bool) (n t : Z) (security_margin : bool) : list Z :=
  let N := n * t in
  let '(R_F, R_P) := find_FD_round_numbers sat t security_margin in
  let min_sbox_cost := get_sbox_cost t R_F R_P in
  let min_size_cost := get_size_cost t R_F R_P N in
  [R_F; R_P; min_sbox_cost; min_size_cost].
