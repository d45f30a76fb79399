(** * ModelMerkle: src/merkle_tree/merkle_tree_{fp,f2,orchard,sapling}.rs

    Sizes are kept in [N] (usize values).  [fuel] bounds the iterations of the unbounded [loop]/[while]
    loops; running out gives [Fuel].  [Vec::with_capacity] (allocation) is not modelled.  Elements are of
    any type [A]: the code only copies them and passes them to [compress]. *)
From Verif Require Import Base.

(** usize multiplication: panics on overflow in debug builds, wraps in release builds *)
Definition umulN (dbg : bool) (a b : N) : res N :=
  if (a * b <? usize_mod)%N then Ok (a * b)%N else if dbg then Panic else Ok ((a * b) mod usize_mod)%N.

(** [(0..n).step_by(2)] *)
Definition range_step_2 (n : nat) : list nat := map (fun k => 2 * k) (seq 0 ((n + 1) / 2)).

(** ** merkle_tree_fp.rs *)

(** merkle_tree_fp.rs:26-31, the loop of round_up_pow_n *)
Fixpoint fp_pow_loop (dbg : bool) (fuel : nat) (input n res : N) : Base.res N :=
  match fuel with
  | O => Fuel
  | S fuel' =>
      res <- umulN dbg res n ;;
      if (input <=? res)%N then Ok res else fp_pow_loop dbg fuel' input n res
  end.
(** merkle_tree_fp.rs:22-33 round_up_pow_n *)
Definition fp_round_up_pow_n (dbg : bool) (fuel : nat) (input n : N) : res N :=
  debug_assert dbg (1 <=? n)%N ;;
  fp_pow_loop dbg fuel input n 1%N.

(** merkle_tree_fp.rs:38-43 *)
Fixpoint fp_bound_loop (dbg : bool) (fuel : nat) (bound : N) : res N :=
  match fuel with
  | O => Fuel
  | S fuel' =>
      if (2 <=? bound)%N then Ok bound else
      bound <- umulN dbg bound 2 ;;
      fp_bound_loop dbg fuel' bound
  end.

(** merkle_tree_fp.rs:45-51: copy the set, then pad *)
Definition fp_pad {A} (dbg : bool) (set : list A) (bound : N) : res (list A) :=
  for_range (length set) (N.to_nat bound) (fun _ nodes =>
    k <- usub dbg (length set) 1 ;;
    a <- idx nodes k ;;
    Ok (nodes ++ [a])) set.

(** merkle_tree_fp.rs:54-61, one pass of the while loop *)
Definition fp_level {A} (compress : list A -> res A) (nodes : list A) : res (list A) :=
  for_list (range_step_2 (length nodes)) (fun i new_nodes =>
    a <- idx nodes i ;; b <- idx nodes (i + 1) ;;
    dig <- compress [a; b] ;;
    Ok (new_nodes ++ [dig])) [].

(** merkle_tree_fp.rs:53-62 *)
Fixpoint fp_levels {A} (fuel : nat) (compress : list A -> res A) (nodes : list A) : res (list A) :=
  match fuel with
  | O => Fuel
  | S fuel' =>
      if 1 <? length nodes then
        new_nodes <- fp_level compress nodes ;;
        fp_levels fuel' compress new_nodes
      else Ok nodes
  end.

(** merkle_tree_fp.rs:35-64 accumulate *)
Definition fp_accumulate {A} (dbg : bool) (fuel : nat) (compress : list A -> res A) (set : list A) : res A :=
  bound <- fp_round_up_pow_n dbg fuel (N.of_nat (length set)) 2 ;;
  bound <- fp_bound_loop dbg fuel bound ;;
  nodes <- fp_pad dbg set bound ;;
  nodes <- fp_levels fuel compress nodes ;;
  idx nodes 0.

(** ** merkle_tree_orchard.rs (compress gets the level and exactly two elements) *)

(** merkle_tree_orchard.rs:23-28 *)
Fixpoint orchard_pow_loop (dbg : bool) (fuel : nat) (input n res : N) : Base.res N :=
  match fuel with
  | O => Fuel
  | S fuel' =>
      res <- umulN dbg res n ;;
      if (input <=? res)%N then Ok res else orchard_pow_loop dbg fuel' input n res
  end.
(** merkle_tree_orchard.rs:19-30 round_up_pow_n *)
Definition orchard_round_up_pow_n (dbg : bool) (fuel : nat) (input n : N) : res N :=
  debug_assert dbg (1 <=? n)%N ;;
  orchard_pow_loop dbg fuel input n 1%N.
(** merkle_tree_orchard.rs:35-40 *)
Fixpoint orchard_bound_loop (dbg : bool) (fuel : nat) (bound : N) : res N :=
  match fuel with
  | O => Fuel
  | S fuel' =>
      if (2 <=? bound)%N then Ok bound else
      bound <- umulN dbg bound 2 ;;
      orchard_bound_loop dbg fuel' bound
  end.
(** merkle_tree_orchard.rs:42-48 *)
Definition orchard_pad {A} (dbg : bool) (set : list A) (bound : N) : res (list A) :=
  for_range (length set) (N.to_nat bound) (fun _ nodes =>
    k <- usub dbg (length set) 1 ;;
    a <- idx nodes k ;;
    Ok (nodes ++ [a])) set.
(** merkle_tree_orchard.rs:52-58, 60 *)
Definition orchard_level {A} (compress : nat -> A -> A -> res A) (lv : nat) (nodes : list A) : res (list A) :=
  for_list (range_step_2 (length nodes)) (fun i new_nodes =>
    a <- idx nodes i ;; b <- idx nodes (i + 1) ;;
    dig <- compress lv a b ;;
    Ok (new_nodes ++ [dig])) [].
(** merkle_tree_orchard.rs:51-61 *)
Fixpoint orchard_levels {A} (dbg : bool) (fuel : nat) (compress : nat -> A -> A -> res A) (lv : nat) (nodes : list A) : res (list A) :=
  match fuel with
  | O => Fuel
  | S fuel' =>
      if 1 <? length nodes then
        new_nodes <- orchard_level compress lv nodes ;;
        lv <- uadd dbg lv 1 ;;
        orchard_levels dbg fuel' compress lv new_nodes
      else Ok nodes
  end.
(** merkle_tree_orchard.rs:32-63 accumulate *)
Definition orchard_accumulate {A} (dbg : bool) (fuel : nat) (compress : nat -> A -> A -> res A) (set : list A) : res A :=
  bound <- orchard_round_up_pow_n dbg fuel (N.of_nat (length set)) 2 ;;
  bound <- orchard_bound_loop dbg fuel bound ;;
  nodes <- orchard_pad dbg set bound ;;
  nodes <- orchard_levels dbg fuel compress 0 nodes ;;
  idx nodes 0.

(** ** merkle_tree_sapling.rs *)

(** merkle_tree_sapling.rs:23-28 *)
Fixpoint sapling_pow_loop (dbg : bool) (fuel : nat) (input n res : N) : Base.res N :=
  match fuel with
  | O => Fuel
  | S fuel' =>
      res <- umulN dbg res n ;;
      if (input <=? res)%N then Ok res else sapling_pow_loop dbg fuel' input n res
  end.
(** merkle_tree_sapling.rs:19-30 round_up_pow_n *)
Definition sapling_round_up_pow_n (dbg : bool) (fuel : nat) (input n : N) : res N :=
  debug_assert dbg (1 <=? n)%N ;;
  sapling_pow_loop dbg fuel input n 1%N.
(** merkle_tree_sapling.rs:35-40 *)
Fixpoint sapling_bound_loop (dbg : bool) (fuel : nat) (bound : N) : res N :=
  match fuel with
  | O => Fuel
  | S fuel' =>
      if (2 <=? bound)%N then Ok bound else
      bound <- umulN dbg bound 2 ;;
      sapling_bound_loop dbg fuel' bound
  end.
(** merkle_tree_sapling.rs:42-48 *)
Definition sapling_pad {A} (dbg : bool) (set : list A) (bound : N) : res (list A) :=
  for_range (length set) (N.to_nat bound) (fun _ nodes =>
    k <- usub dbg (length set) 1 ;;
    a <- idx nodes k ;;
    Ok (nodes ++ [a])) set.
(** merkle_tree_sapling.rs:52-58, 60 *)
Definition sapling_level {A} (compress : nat -> A -> A -> res A) (lv : nat) (nodes : list A) : res (list A) :=
  for_list (range_step_2 (length nodes)) (fun i new_nodes =>
    a <- idx nodes i ;; b <- idx nodes (i + 1) ;;
    dig <- compress lv a b ;;
    Ok (new_nodes ++ [dig])) [].
(** merkle_tree_sapling.rs:51-61 *)
Fixpoint sapling_levels {A} (dbg : bool) (fuel : nat) (compress : nat -> A -> A -> res A) (lv : nat) (nodes : list A) : res (list A) :=
  match fuel with
  | O => Fuel
  | S fuel' =>
      if 1 <? length nodes then
        new_nodes <- sapling_level compress lv nodes ;;
        lv <- uadd dbg lv 1 ;;
        sapling_levels dbg fuel' compress lv new_nodes
      else Ok nodes
  end.
(** merkle_tree_sapling.rs:32-63 accumulate *)
Definition sapling_accumulate {A} (dbg : bool) (fuel : nat) (compress : nat -> A -> A -> res A) (set : list A) : res A :=
  bound <- sapling_round_up_pow_n dbg fuel (N.of_nat (length set)) 2 ;;
  bound <- sapling_bound_loop dbg fuel bound ;;
  nodes <- sapling_pad dbg set bound ;;
  nodes <- sapling_levels dbg fuel compress 0 nodes ;;
  idx nodes 0.

(** ** merkle_tree_f2.rs: the hasher is state that outlives a call, also one that panics *)

Definition st (S A : Type) : Type := S -> res A * S.
Definition sret {S A} (a : A) : st S A := fun s => (Ok a, s).
Definition slift {S A} (r : res A) : st S A := fun s => (r, s).
Definition sbind {S A B} (m : st S A) (k : A -> st S B) : st S B := fun s =>
  match m s with (Ok a, s') => k a s' | (Panic, s') => (Panic, s') | (Fuel, s') => (Fuel, s') end.
Fixpoint sfor_list {S X Acc} (l : list X) (body : X -> Acc -> st S Acc) (acc : Acc) : st S Acc :=
  match l with [] => sret acc | x :: l' => sbind (body x acc) (fun acc' => sfor_list l' body acc') end.

Section F2.
  (** the digest (sha2, sha3, ...): bytes [B], hasher state [H] and the three operations of the [Digest]
      trait that the code uses; [Output<F>] is a list of bytes *)
  Context {B H : Type} (h_new : H) (h_update : H -> list B -> H) (h_finalize_reset : H -> list B * H).

  (** merkle_tree_f2.rs:18-20 new, 11-15 default: [MerkleTree] has the single field hasher *)
  Definition f2_new : H := h_new.
  Definition f2_default : H := h_new.

  (** merkle_tree_f2.rs:26-31 *)
  Fixpoint f2_pow_loop (dbg : bool) (fuel : nat) (input n res : N) : Base.res N :=
    match fuel with
    | O => Fuel
    | S fuel' =>
        res <- umulN dbg res n ;;
        if (input <=? res)%N then Ok res else f2_pow_loop dbg fuel' input n res
    end.
  (** merkle_tree_f2.rs:22-33 round_up_pow_n *)
  Definition f2_round_up_pow_n (dbg : bool) (fuel : nat) (input n : N) : res N :=
    debug_assert dbg (1 <=? n)%N ;;
    f2_pow_loop dbg fuel input n 1%N.
  (** merkle_tree_f2.rs:44-49 *)
  Fixpoint f2_bound_loop (dbg : bool) (fuel : nat) (bound : N) : res N :=
    match fuel with
    | O => Fuel
    | S fuel' =>
        if (2 <=? bound)%N then Ok bound else
        bound <- umulN dbg bound 2 ;;
        f2_bound_loop dbg fuel' bound
    end.
  (** merkle_tree_f2.rs:51-57 *)
  Definition f2_pad (dbg : bool) (set : list (list B)) (bound : N) : res (list (list B)) :=
    for_range (length set) (N.to_nat bound) (fun _ nodes =>
      k <- usub dbg (length set) 1 ;;
      a <- idx nodes k ;;
      Ok (nodes ++ [a])) set.

  (** merkle_tree_f2.rs:35-39 compress *)
  Definition f2_compress (i0 i1 : list B) : st H (list B) := fun h =>
    let h := h_update h i0 in
    let h := h_update h i1 in
    let '(d, h) := h_finalize_reset h in
    (Ok d, h).

  (** merkle_tree_f2.rs:60-67 *)
  Definition f2_level (nodes : list (list B)) : st H (list (list B)) :=
    sfor_list (range_step_2 (length nodes)) (fun i new_nodes =>
      sbind (slift (idx nodes i)) (fun a =>
      sbind (slift (idx nodes (i + 1))) (fun b =>
      sbind (f2_compress a b) (fun dig =>
      sret (new_nodes ++ [dig]))))) [].
  (** merkle_tree_f2.rs:59-68 *)
  Fixpoint f2_levels (fuel : nat) (nodes : list (list B)) : st H (list (list B)) :=
    match fuel with
    | O => slift Fuel
    | S fuel' =>
        if 1 <? length nodes then sbind (f2_level nodes) (fun new_nodes => f2_levels fuel' new_nodes)
        else sret nodes
    end.
  (** merkle_tree_f2.rs:41-70 accumulate *)
  Definition f2_accumulate (dbg : bool) (fuel : nat) (set : list (list B)) : st H (list B) :=
    sbind (slift (f2_round_up_pow_n dbg fuel (N.of_nat (length set)) 2)) (fun bound =>
    sbind (slift (f2_bound_loop dbg fuel bound)) (fun bound =>
    sbind (slift (f2_pad dbg set bound)) (fun nodes =>
    sbind (f2_levels fuel nodes) (fun nodes =>
    slift (idx nodes 0))))).
End F2.
