(** * Active S-boxes of GMiMC: C77 *)
From Verif Require Import Base Field Spec SpecFirst ModelGmimc ModelFields F13.
From Verif Require ProofGmTrail.
Local Open Scope nat_scope.

(** every S-box: one active S-box in any t consecutive rounds *)
Theorem C77_any_sbox :
  forall F (Fo : FOps F), is_field Fo ->
  forall rng t d rounds (P : GmimcParams F) x y lo m,
    gm_new rng t d rounds = Ok P -> 1 <= t -> length x = t -> length y = t -> x <> y -> lo + m * t <= rounds ->
    exists st st', states (fun r s => s <- gm_round P s r ;; rotate_right s 1) lo (m * t) x st /\
      states (fun r s => s <- gm_round P s r ;; rotate_right s 1) lo (m * t) y st' /\
      m <= first_differ (m * t) st st'.
Proof. exact @ProofGmTrail.gm_active_any. Qed.
Print Assumptions C77_any_sbox.

(** bijective S-box: after the first t rounds two active S-boxes in any t + 1 rounds *)
Theorem C77_bijective_sbox :
  forall F (Fo : FOps F) p rng t d rounds (P : GmimcParams F) x y lo m,
    is_prime_field Fo p -> Z.gcd (Z.of_nat d) (p - 1) = 1%Z ->
    gm_new rng t d rounds = Ok P -> 1 <= t -> length x = t -> length y = t -> x <> y -> lo + (t + m * (t + 1)) <= rounds ->
    exists st st', states (fun r s => s <- gm_round P s r ;; rotate_right s 1) lo (t + m * (t + 1)) x st /\
      states (fun r s => s <- gm_round P s r ;; rotate_right s 1) lo (t + m * (t + 1)) y st' /\
      2 * m + 1 <= first_differ (t + m * (t + 1)) st st'.
Proof. exact @ProofGmTrail.gm_active_gcd. Qed.
Print Assumptions C77_bijective_sbox.

Theorem C77_shipped :
  forall J, In J gm_instances -> forall F (Fo : FOps F), is_prime_field Fo (gi_p J) ->
  forall rng (P : GmimcParams F) x y, gm_new rng (gi_t J) (gi_d J) (gi_rounds J) = Ok P ->
  length x = gi_t J -> length y = gi_t J -> x <> y ->
  let n := gi_t J + (gi_rounds J - gi_t J) / (gi_t J + 1) * (gi_t J + 1) in
  n <= gi_rounds J /\
  exists st st', states (fun r s => s <- gm_round P s r ;; rotate_right s 1) 0 n x st /\
    states (fun r s => s <- gm_round P s r ;; rotate_right s 1) 0 n y st' /\
    2 * ((gi_rounds J - gi_t J) / (gi_t J + 1)) + 1 <= first_differ n st st'.
Proof. exact ProofGmTrail.gm_active_shipped. Qed.
Print Assumptions C77_shipped.

(** the accumulator path applies its S-boxes to the same words *)
Theorem C77_same_inputs :
  forall F (Fo : FOps F), is_field Fo ->
  forall rng t d rounds (P : GmimcParams F) x k,
    gm_new rng t d rounds = Ok P -> 2 <= t -> length x = t -> k <= rounds ->
    exists cur acc queue s,
      for_range 0 k (fun r '(cur, acc, queue) =>
        '(acc, queue) <- gm_step P r cur acc queue ;;
        cur <- rotate_right cur 1 ;;
        c0 <- idx cur 0 ;;
        cur <- upd cur 0 (fadd c0 acc) ;;
        Ok (cur, acc, queue)) (x, f0, repeat f0 (t - 1)) = Ok (cur, acc, queue) /\
      for_range 0 k (fun r s => s <- gm_round P s r ;; rotate_right s 1) x = Ok s /\ nth 0 cur f0 = nth 0 s f0.
Proof. exact @ProofGmTrail.gm_opt_inputs. Qed.
Print Assumptions C77_same_inputs.

(** t - 1 rounds without any active S-box, so t cannot be lowered in the first bound *)
Theorem C77_quiet_rounds :
  forall F (Fo : FOps F), is_field Fo ->
  forall rng t d rounds (P : GmimcParams F) x y lo,
    gm_new rng t d rounds = Ok P -> 2 <= t -> length x = t -> length y = t -> (forall i, i < t -> i <> 1 -> nth i x f0 = nth i y f0) ->
    lo + (t - 1) <= rounds ->
    exists st st', states (fun r s => s <- gm_round P s r ;; rotate_right s 1) lo (t - 1) x st /\
      states (fun r s => s <- gm_round P s r ;; rotate_right s 1) lo (t - 1) y st' /\ first_differ (t - 1) st st' = 0.
Proof. exact @ProofGmTrail.gm_quiet. Qed.
Print Assumptions C77_quiet_rounds.

(** linear relations between input and output of up to t - 3 rounds *)
Theorem C77_linear_relations :
  forall F (Fo : FOps F), is_field Fo ->
  forall rng t d rounds (P : GmimcParams F) x lo n i j,
    gm_new rng t d rounds = Ok P -> length x = t -> lo + n <= rounds -> 1 <= i -> 1 <= j -> i + n <= t - 1 -> j + n <= t - 1 ->
    exists y, for_range lo (lo + n) (fun r s => s <- gm_round P s r ;; rotate_right s 1) x = Ok y /\
      fsub (nth (i + n) y f0) (nth (j + n) y f0) = fsub (nth i x f0) (nth j x f0).
Proof. exact @ProofGmTrail.gm_linear. Qed.
Print Assumptions C77_linear_relations.

(** a single word is returned unchanged *)
Theorem C77_width_one :
  forall F (Fo : FOps F), is_field Fo ->
  forall dbg rng d rounds (P : GmimcParams F) a, gm_new rng 1 d rounds = Ok P -> 1 <= rounds -> gm_permutation dbg P [a] = Ok [a].
Proof. exact @ProofGmTrail.gm_width_1. Qed.
Print Assumptions C77_width_one.

(** without a bijective S-box the second bound fails *)
Theorem C77_cube_refuted :
  ~ (forall F (Fo : FOps F) p rng t d rounds (P : GmimcParams F) x y lo m,
      is_prime_field Fo p ->
      gm_new rng t d rounds = Ok P -> 1 <= t -> length x = t -> length y = t -> x <> y -> lo + (t + m * (t + 1)) <= rounds ->
      exists st st', states (fun r s => s <- gm_round P s r ;; rotate_right s 1) lo (t + m * (t + 1)) x st /\
        states (fun r s => s <- gm_round P s r ;; rotate_right s 1) lo (t + m * (t + 1)) y st' /\
        2 * m + 1 <= first_differ (t + m * (t + 1)) st st').
Proof. exact ProofGmTrail.gm_cube. Qed.
Print Assumptions C77_cube_refuted.

(** ** Examples over the field with 13 elements *)
Notation gt_rng := ProofGmTrail.gt_rng.
Definition gt_first (t d rounds k : nat) (x : list F13) : res F13 :=
  P <- gm_new gt_rng t d rounds ;; s <- for_range 0 k (fun r s => s <- gm_round P s r ;; rotate_right s 1) x ;; idx s 0.
Definition gt_differ (t d rounds : nat) (x y : list F13) : list bool :=
  map (fun k => match gt_first t d rounds k x, gt_first t d rounds k y with Ok a, Ok b => negb (feqb a b) | _, _ => false end) (seq 0 rounds).

(** the bound 3 is attained for width 3 and degree 5 in 7 rounds *)
Example C77_ex_tight : filter (fun b => b) (gt_differ 3 5 7 (l13 [0; 1; 11]%Z) (l13 [0; 0; 1]%Z)) = [true; true; true].
Proof. vm_compute. reflexivity. Qed.
Example C77_ex_cube : filter (fun b => b) (gt_differ 3 3 7 (l13 [0; 0; 8]%Z) (l13 [0; 0; 3]%Z)) = [true; true].
Proof. vm_compute. reflexivity. Qed.
Example C77_ex_coprime : Z.gcd 5 (13 - 1) = 1%Z /\ Z.gcd 3 (13 - 1) = 3%Z.
Proof. split; reflexivity. Qed.
Example C77_ex_quiet : gt_differ 3 5 3 (l13 [4; 1; 11]%Z) (l13 [4; 0; 11]%Z) = [false; false; true].
Proof. vm_compute. reflexivity. Qed.
(** width 5, two rounds: y_3 - y_4 = x_1 - x_2 *)
Example C77_ex_linear : (P <- gm_new gt_rng 5 5 4 ;;
  out13 (for_range 0 2 (fun r s => s <- gm_round P s r ;; rotate_right s 1) (l13 [1; 7; 3; 4; 5]%Z))) = Ok [6; 11; 10; 9; 5]%Z.
Proof. vm_compute. reflexivity. Qed.
(** the BN256 instance of width 3: at least 111 of its 226 S-boxes are active *)
Example C77_ex_shipped : In (gm_inst p_bn256 3 5 226) gm_instances /\ 2 * ((226 - 3) / (3 + 1)) + 1 = 111.
Proof. split; [cbv; tauto|reflexivity]. Qed.
