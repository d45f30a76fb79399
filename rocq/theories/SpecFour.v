(** * SpecFour: the degree of the external rounds of Neptune with four words *)
From Verif Require Import Base Field Spec SpecPoly SpecTop.
Local Open Scope nat_scope.

(** three rounds multiply the degree by 56, a single one by 4 *)
Definition four_bound (h : nat) : nat := 56 ^ (h / 3) * 4 ^ (h mod 3).

Section SpecFour.
  Context {F : Type} {Fo : FOps F}.
  Local Infix "+" := fadd. Local Infix "*" := fmul. Local Infix "-" := fsub.

  (** the coefficient of highest degree after three external rounds: with the differences m, n of the two pairs,
      3 (12 (m^4 - n^4)^3 (m^2 + n^2))^4 in all four words *)
  Definition four_coef (m n : F) : F :=
    f_of_Z 3 * fpow (f_of_Z 12 * fpow (fpow m 4 - fpow n 4) 3 * (m * m + n * n)) 4.
  Definition four_top (l : list F) : list F :=
    let y := four_coef (nth 0 l f0 - nth 1 l f0) (nth 2 l f0 - nth 3 l f0) in [y; y; y; y].

  (** six external rounds with k internal rounds in the middle *)
  Definition np4_top (d k : nat) (ME MI : @mat F) (b : list F) : list F := top_rounds 1 k four_top (top_part 4 d MI) (mat_apply 4 4 ME b).
End SpecFour.
