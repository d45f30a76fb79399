(** * SpecConst: what it means that a round constant matters on every input *)
From Verif Require Import Base Field Spec.
Local Open Scope nat_scope.

(** both are defined and different on every vector of length t *)
Definition differ_everywhere {F : Type} (t : nat) (f g : list F -> res (list F)) : Prop :=
  forall x, length x = t -> exists y z, f x = Ok y /\ g x = Ok z /\ y <> z.
Definition agree_everywhere {F : Type} (t : nat) (f g : list F -> res (list F)) : Prop :=
  forall x, length x = t -> exists y, f x = Ok y /\ g x = Ok y.

(** the positions of the table that Poseidon2 reads: all words of the full rounds, the first word of the partial rounds *)
Definition p2_reads (t rf rp r i : nat) : Prop :=
  ((r < rf / 2 \/ rf / 2 + rp <= r < rf / 2 + rp + rf / 2) /\ i < t) \/ (rf / 2 <= r < rf / 2 + rp /\ i = 0).
(** Poseidon and Neptune read everything *)
Definition all_reads (t rf rp r i : nat) : Prop := r < rf + rp /\ i < t.

(** two tables differ, among the positions read, in row r and nowhere else *)
Definition only_row {F : Type} {Fo : FOps F} (reads : nat -> nat -> Prop) (r : nat) (rc rc' : list (list F)) : Prop :=
  (exists i, reads r i /\ nth i (nth r rc []) f0 <> nth i (nth r rc' []) f0) /\
  (forall s i, s <> r -> reads s i -> nth i (nth s rc []) f0 = nth i (nth s rc' []) f0).
