(** * SpecGmimc: reference description of GMiMC, independent of the model *)
From Verif Require Import Base Field Spec.

Section SpecGm.
  Context {F : Type} {Fo : FOps F}.

  (** (x_0 + c)^d is added to every element except the first *)
  Definition gm_ref_round (t d : nat) (c : F) (x : list F) : list F :=
    map (fun i => if i =? 0 then nth 0 x f0 else fadd (nth i x f0) (fpow (fadd (nth 0 x f0) c) d)) (seq 0 t).

  (** the last element moves to the front *)
  Definition gm_ref_rotate (t : nat) (x : list F) : list F :=
    map (fun i => match i with O => nth (t - 1) x f0 | S j => nth j x f0 end) (seq 0 t).

  (** all rounds but the last are followed by a rotation *)
  Definition gm_ref (t d rounds : nat) (rc : list F) (x : list F) : list F :=
    gm_ref_round t d (nth (rounds - 1) rc f0)
      (fold_left (fun s r => gm_ref_rotate t (gm_ref_round t d (nth r rc f0) s)) (seq 0 (rounds - 1)) x).
End SpecGm.
