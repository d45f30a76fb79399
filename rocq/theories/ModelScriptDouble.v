(** * ModelScriptDouble: the choice of the round numbers, operation by operation in binary64

    The same lines of poseidon2_rust_params.sage as in ModelScript and ModelScriptFloat.  Every +, -, * and / on
    floating point numbers gives a nearest binary64 number.  For the functions of libraries only accuracy is assumed:
    math.log of one argument has a relative error of at most 2^-40, Sage's binomial on floating point arguments one of at most
    2^-20, and it may be infinite from 2^1023 on.  Integers are exact. *)
From Coq Require Import Reals ZArith List Bool.
From Verif Require Import SpecRounds SpecDouble ModelScript.
Local Open Scope Z_scope.

(** math.log(x) *)
Definition log_value (x v : R) : Prop := (Rabs (v - ln x) <= Rabs (ln x) / 2 ^ 40)%R.
(** Python's math.log(x, b) divides log(x) by log(b) *)
Definition log_base (x b v : R) : Prop := exists lx lb, log_value x lx /\ log_value b lb /\ nearest (lx / lb)%R v.
(** binomial(over, under); None: infinity *)
Definition binomial_value (o u : nat) (c : option R) : Prop :=
  match c with
  | Some c => (C o u < 2 ^ 1024)%R /\ (Rabs (c - C o u) <= C o u / 2 ^ 20)%R
  | None => (2 ^ 1023 <= C o u)%R
  end.

(** poseidon2_rust_params.sage:84-106 sat_inequiv_alpha, with FIELD_SIZE = n: [ans] is an answer of the program *)
Definition sat_double (p n t R_F R_P alpha M : Z) (ans : bool) : Prop :=
  exists lp l2 lt la : R,
  log_base (IZR p) 2 lp /\ log_base 2 (IZR alpha) l2 /\ log_base (IZR t) (IZR alpha) lt /\ log_base (IZR alpha) 2 la /\
  (* line 88 *)
  exists h v1 : R, nearest (IZR (alpha - 1) / 2)%R h /\ nearest (lp - h)%R v1 /\
  (* line 89 *)
  exists v2a : R, nearest (l2 * IZR (Z.min M n))%R v2a /\
  (* line 90 *)
  exists m3 v3 : R, nearest (l2 * Rmin (IZR M) lp)%R m3 /\ nearest (m3 - IZR R_P)%R v3 /\
  (* line 91 *)
  exists q4 h4 m4 s4 v4 : R, nearest (IZR M / IZR (t + 1))%R q4 /\ nearest (lp / 2)%R h4 /\ nearest (l2 * Rmin q4 h4)%R m4 /\
    nearest (IZR (t - 1) + m4)%R s4 /\ nearest (s4 - IZR R_P)%R v4 /\
  (* line 92 *)
  exists a5 q5 s5 d5 v5 : R, nearest (2 * la)%R a5 /\ nearest (IZR M / a5)%R q5 /\ nearest (IZR (t - 2) + q5)%R s5 /\
    nearest (s5 - IZR R_P)%R d5 /\ nearest (d5 / IZR (t - 1))%R v5 /\
  (* lines 96-98 *)
  exists t3 rh x1 o1 o2 over u1 under : R, nearest (IZR t / 3)%R t3 /\ nearest (IZR R_F / 2)%R rh /\
    nearest (IZR (Rfloor t3) * rh)%R x1 /\
    nearest (IZR ((R_F - 1) * t + R_P + Rfloor t3) + x1)%R o1 /\ nearest (o1 + IZR R_P)%R o2 /\ nearest (o2 + IZR alpha)%R over /\
    nearest (x1 + IZR R_P)%R u1 /\ nearest (u1 + IZR alpha)%R under /\
  (* lines 99-102 *)
  exists (o u : nat) (c : option R) (binom_log v6 : R), over = INR o /\ under = INR u /\ binomial_value o u c /\
    match c with Some c => log_base c 2 binom_log | None => binom_log = IZR (M + 1) end /\
    nearest (2 * binom_log)%R v6 /\
  (* lines 88-93, 102-104 *)
  let R_F_1 := if M <=? Rfloor v1 * (t + 1) then 6 else 10 in
  let R_F_2 := 1 + Rceil v2a + Rceil lt - R_P in
  let R_F_max := Z.max R_F_1 (Z.max R_F_2 (Z.max (Rceil v3) (Z.max (Rceil v4) (Rceil v5)))) in
  let cost_gb4 := Rceil v6 in
  ans = (R_F_max <=? R_F) && (M <=? cost_gb4).
