(** * SpecBinding: when two sets have to have the same root *)
From Verif Require Import Base SpecMerkle.

Section Binding.
  Context {A : Type}.

  (** one of the two sets is the other one followed by copies of its last element, not more than fit into the tree *)
  Definition same_up_to_padding (s s' : list A) : Prop :=
    exists short d j, length short + j <= padded_size (length short) /\
      ((s = short /\ s' = short ++ repeat (last short d) j) \/ (s' = short /\ s = short ++ repeat (last short d) j)).

  (** the values k levels above the leaves *)
  Definition row (c : A -> A -> A) (k : nat) (leaves : list A) : list A := Nat.iter k (pairs c) leaves.

  (** the padded leaves of [s'] are a row above the leaves of [s] *)
  Definition row_of (c : A -> A -> A) (s s' : list A) : Prop :=
    exists k, 1 <= k /\ tree_depth (length s) = k + tree_depth (length s') /\ padded s' = row c k (padded s).
End Binding.
