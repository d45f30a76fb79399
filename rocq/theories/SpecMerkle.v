(** * SpecMerkle: perfect binary trees, padding, authentication paths *)
From Verif Require Import Base.

(** depth of the padded tree: least k >= 1 with n <= 2^k *)
Definition tree_depth (n : nat) : nat := Nat.max 1 (Nat.log2_up n).
Definition padded_size (n : nat) : nat := 2 ^ tree_depth n.

Section Tree.
  Context {A : Type}.

  (** the set followed by copies of its last element *)
  Definition padded (set : list A) : list A :=
    match rev set with
    | [] => []
    | a :: _ => set ++ repeat a (padded_size (length set) - length set)
    end.

  (** root of the perfect tree of depth k over 2^k leaves; [c h] combines two roots of depth h *)
  Fixpoint tree_root (c : nat -> A -> A -> A) (d : A) (k : nat) (leaves : list A) : A :=
    match k with
    | O => hd d leaves
    | S h => c h (tree_root c d h (firstn (2 ^ h) leaves)) (tree_root c d h (skipn (2 ^ h) leaves))
    end.

  (** the compressions of that tree: level and the two inputs *)
  Fixpoint tree_nodes (c : nat -> A -> A -> A) (d : A) (k : nat) (leaves : list A) : list (nat * A * A) :=
    match k with
    | O => []
    | S h => let l := firstn (2 ^ h) leaves in let r := skipn (2 ^ h) leaves in
        (h, tree_root c d h l, tree_root c d h r) :: tree_nodes c d h l ++ tree_nodes c d h r
    end.

  (** root of the padded tree of a non-empty set *)
  Definition merkle_root (c : nat -> A -> A -> A) (set : list A) : option A :=
    match set with
    | [] => None
    | d :: _ => Some (tree_root c d (tree_depth (length set)) (padded set))
    end.
  Definition merkle_nodes (c : nat -> A -> A -> A) (set : list A) : list (nat * A * A) :=
    match set with
    | [] => []
    | d :: _ => tree_nodes c d (tree_depth (length set)) (padded set)
    end.

  (** values of the parents of the leaves *)
  Fixpoint pairs (c : A -> A -> A) (l : list A) : list A :=
    match l with
    | a :: b :: l' => c a b :: pairs c l'
    | _ => []
    end.

  (** recomputing a root from a leaf value, its index and the siblings from the leaf upwards *)
  Fixpoint path_root (c : nat -> A -> A -> A) (h i : nat) (v : A) (path : list A) : A :=
    match path with
    | [] => v
    | s :: path' => path_root c (S h) (i / 2) (if i mod 2 =? 0 then c h v s else c h s v) path'
    end.
End Tree.

(** the usual contract of a streaming digest: [absorbed h] is what the state has been fed since the last reset *)
Record digest_contract {B H : Type} (h_new : H) (h_update : H -> list B -> H) (h_finalize_reset : H -> list B * H)
    (hash : list B -> list B) (absorbed : H -> list B) : Prop := {
  dc_new : absorbed h_new = [];
  dc_update : forall h x, absorbed (h_update h x) = absorbed h ++ x;
  dc_digest : forall h, fst (h_finalize_reset h) = hash (absorbed h);
  dc_reset : forall h, absorbed (snd (h_finalize_reset h)) = []
}.
