(** * SpecShort: Poseidon rounds whose row of constants is too short

    A word without a constant is replaced by zero; nothing here refers to the model. *)
From Verif Require Import Base Field Spec.

Section Short.
  Context {F : Type} {Fo : FOps F}.

  Definition short_full (t d : nat) (M : mat) (c x : list F) : list F :=
    mat_apply t t M
      (map (fun i => if i <? length c then fpow (fadd (nth i x f0) (nth i c f0)) d else f0) (seq 0 t)).

  Definition short_partial (t d : nat) (M : mat) (c x : list F) : list F :=
    mat_apply t t M
      (map (fun i => if i <? length c then
                       let y := fadd (nth i x f0) (nth i c f0) in if i =? 0 then fpow y d else y
                     else f0) (seq 0 t)).

  (** rf/2 full, rp partial, rf/2 full rounds *)
  Definition short_ref (t d rf rp : nat) (M : mat) (rc : list (list F)) (x : list F) : list F :=
    let full s r := short_full t d M (nth r rc []) s in
    let part s r := short_partial t d M (nth r rc []) s in
    let s := fold_left full (seq 0 (rf / 2)) x in
    let s := fold_left part (seq (rf / 2) rp) s in
    fold_left full (seq (rf / 2 + rp) (rf / 2)) s.
End Short.
