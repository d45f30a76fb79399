(** * ModelGmimc: src/gmimc/gmimc.rs and src/gmimc/gmimc_params.rs *)
From Verif Require Import Base Field.

(** gmimc_params.rs:6-11 *)
Record GmimcParams (F : Type) := {
  gm_t : nat;
  gm_d : nat;
  gm_rounds : nat;
  gm_rc : list F
}.
Arguments gm_t {F}. Arguments gm_d {F}. Arguments gm_rounds {F}. Arguments gm_rc {F}.

Section Gmimc.
  Context {F : Type} {Fo : FOps F}.

  (** gmimc_params.rs:39-43 instantiate_rc.  The thread-local random generator is an arbitrary
      stream [rng]: the i-th call of [random_scalar] returns [rng i]. *)
  Definition gm_instantiate_rc (rng : nat -> F) (rounds : nat) : list F := map rng (seq 0 rounds).

  (** gmimc_params.rs:16-28 GmimcParams::new *)
  Definition gm_new (rng : nat -> F) (t d rounds : nat) : res (GmimcParams F) :=
    assert ((d =? 3) || (d =? 5) || (d =? 7)) ;;
    Ok {| gm_t := t; gm_d := d; gm_rounds := rounds; gm_rc := gm_instantiate_rc rng rounds |}.

  (** gmimc_params.rs:45-47 and 49-51, gmimc.rs:21-23 *)
  Definition gm_params_get_t (P : GmimcParams F) : nat := gm_t P.
  Definition gm_params_get_rounds (P : GmimcParams F) : nat := gm_rounds P.
  Definition gm_get_t (P : GmimcParams F) : nat := gm_t P.

  (** gmimc.rs:25-54 sbox *)
  Definition gm_sbox (P : GmimcParams F) (state_0 : F) (round : nat) : res F :=
    c <- idx (gm_rc P) round ;;
    let input := fadd state_0 c in
    let input2 := fsquare input in
    match gm_d P with
    | 3 => Ok (fmul input2 input)
    | 5 => Ok (fmul (fsquare input2) input)
    | 7 => Ok (fmul (fmul (fsquare input2) input2) input)
    | _ => Panic
    end.

  (** gmimc.rs:56-59 round *)
  Definition gm_round (P : GmimcParams F) (state : list F) (round : nat) : res (list F) :=
    s0 <- idx state 0 ;;
    power <- gm_sbox P s0 round ;;
    Ok (match state with [] => [] | a :: l => a :: map (fun f => fadd f power) l end).

  (** gmimc.rs:101-113 permutation_not_opt.  [rounds - 1] is [usize] subtraction. *)
  Definition gm_permutation_not_opt (dbg : bool) (P : GmimcParams F) (input : list F) : res (list F) :=
    assert (gm_t P =? length input) ;;
    hi <- usub dbg (gm_rounds P) 1 ;;
    st <- for_range 0 hi (fun r st => st <- gm_round P st r ;; rotate_right st 1) input ;;
    last <- usub dbg (gm_rounds P) 1 ;;
    gm_round P st last.

  (** gmimc.rs:73-77 and 84-88: S-box, queue and accumulator update *)
  Definition gm_step (P : GmimcParams F) (r : nat) (cur : list F) (acc : F) (queue : list F)
    : res (F * list F) :=
    s0 <- idx cur 0 ;;
    power <- gm_sbox P s0 r ;;
    queue <- rotate_right queue 1 ;;
    q0 <- idx queue 0 ;;
    let acc := fsub acc q0 in
    queue <- upd queue 0 power ;;
    Ok (fadd acc power, queue).

  (** gmimc.rs:61-99 permutation.  The loop at 92 runs over the indices t-2, ..., 1. *)
  Definition gm_permutation (dbg : bool) (P : GmimcParams F) (input : list F) : res (list F) :=
    let t := gm_t P in
    if t <? 8 then gm_permutation_not_opt dbg P input else
    assert (t =? length input) ;;
    hi <- usub dbg (gm_rounds P) 1 ;;
    '(cur, acc, queue) <- for_range 0 hi (fun r '(cur, acc, queue) =>
        '(acc, queue) <- gm_step P r cur acc queue ;;
        cur <- rotate_right cur 1 ;;
        c0 <- idx cur 0 ;;
        cur <- upd cur 0 (fadd c0 acc) ;;
        Ok (cur, acc, queue)) (input, f0, repeat f0 (t - 1)) ;;
    last <- usub dbg (gm_rounds P) 1 ;;
    '(acc, queue) <- gm_step P last cur acc queue ;;
    cl <- idx cur (t - 1) ;;
    cur <- upd cur (t - 1) (fadd cl acc) ;;
    '(cur, acc, queue) <- for_range_rev 1 (t - 1) (fun i '(cur, acc, queue) =>
        queue <- rotate_right queue 1 ;;
        q0 <- idx queue 0 ;;
        let acc := fsub acc q0 in
        el <- idx cur i ;;
        cur <- upd cur i (fadd el acc) ;;
        Ok (cur, acc, queue)) (cur, acc, queue) ;;
    Ok cur.

  (** gmimc.rs:116-120 compress *)
  Definition gm_compress (dbg : bool) (P : GmimcParams F) (input : list F) : res F :=
    a <- idx input 0 ;; b <- idx input 1 ;;
    out <- gm_permutation dbg P [a; b; f0] ;;
    idx out 0.
End Gmimc.
