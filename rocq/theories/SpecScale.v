(** * SpecScale: scaling a state by a field element *)
From Verif Require Import Base Field Spec.
Local Open Scope nat_scope.

Section Scale.
  Context {F : Type} {Fo : FOps F}.
  (** every word multiplied by a *)
  Definition scale (a : F) (x : list F) : list F := map (fmul a) x.
  (** g takes the scaled input to the scaled output of f *)
  Definition scaled_by (t : nat) (a : F) (f g : list F -> res (list F)) : Prop :=
    forall x, length x = t -> exists y, f x = Ok y /\ g (scale a x) = Ok (scale a y).
  (** minus one *)
  Definition minus_one : F := fsub f0 f1.
  (** a table of zeros *)
  Definition zero_table (t rounds : nat) : list (list F) := repeat (repeat f0 t) rounds.
End Scale.
