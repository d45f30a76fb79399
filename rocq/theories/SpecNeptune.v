(** * SpecNeptune: reference description of Neptune, independent of the model *)
From Verif Require Import Base Field Spec.

Section SpecNp.
  Context {F : Type} {Fo : FOps F}.
  Local Infix "+" := fadd. Local Infix "*" := fmul. Local Infix "-" := fsub.
  Local Notation two := (f1 + f1). Local Notation three := (f1 + f1 + f1). Local Notation four := (f1 + f1 + f1 + f1).

  (** the published S-box on pairs with parameters alpha, beta, gamma:
      alpha^2 (2 x1 + x2) + 3 alpha beta (x1-x2)^2 + beta (alpha (x1 - 2 x2) - beta (x1-x2)^2 + gamma)^2,
      alpha^2 (x1 + 3 x2) + 4 alpha beta (x1-x2)^2 + beta (alpha (x1 - 2 x2) - beta (x1-x2)^2 + gamma)^2 *)
  Definition np_pair (al be ga x1 x2 : F) : F * F :=
    let z2 := (x1 - x2) * (x1 - x2) in
    let w := al * (x1 - two * x2) - be * z2 + ga in
    (al * al * (two * x1 + x2) + three * al * be * z2 + be * (w * w),
     al * al * (x1 + three * x2) + four * al * be * z2 + be * (w * w)).

  (** S-box layer: on each pair of neighbours *)
  Definition np_ref_sbox (t : nat) (abc : F * F * F) (x : list F) : list F :=
    let '(al, be, ga) := abc in
    map (fun i => if Nat.even i then fst (np_pair al be ga (nth i x f0) (nth (S i) x f0))
                  else snd (np_pair al be ga (nth (i - 1)%nat x f0) (nth i x f0))) (seq 0 t).

  (** circulant matrix with the given first row *)
  Definition circ (row : list F) : mat := fun i j =>
    let n := length row in nth ((j + n - i) mod n)%nat row f0.

  (** mu on the diagonal, ones elsewhere *)
  Definition np_int_matrix (mu : nat -> F) : mat := fun i j => if i =? j then mu i else f1.

  Definition np_ref_ext (t : nat) (abc : F * F * F) (ME : mat) (c x : list F) : list F :=
    map (fun i => nth i (mat_apply t t ME (np_ref_sbox t abc x)) f0 + nth i c f0) (seq 0 t).
  Definition np_ref_int (t d : nat) (MI : mat) (c x : list F) : list F :=
    map (fun i => nth i (mat_apply t t MI (map (fun i => if i =? 0 then fpow (nth 0 x f0) d else nth i x f0) (seq 0 t))) f0
                  + nth i c f0) (seq 0 t).

  (** initial external matrix, rf/2 external, rp internal, rf/2 external rounds *)
  Definition np_ref (t d rf rp : nat) (abc : F * F * F) (ME MI : mat) (rc : list (list F)) (x : list F) : list F :=
    let h := (rf / 2)%nat in
    let s := mat_apply t t ME x in
    let s := fold_left (fun s r => np_ref_ext t abc ME (nth r rc []) s) (seq 0 h) s in
    let s := fold_left (fun s r => np_ref_int t d MI (nth r rc []) s) (seq h rp) s in
    fold_left (fun s r => np_ref_ext t abc ME (nth r rc []) s) (seq (h + rp)%nat h) s.
End SpecNp.

Section SpecNpParams.
  Context {F : Type} {Fo : FOps F}.
  (** the blocks written to the even and odd positions *)
  Definition np_even_block (t rounds : nat) (rng : nat -> F) : mat :=
    if t =? 4 then circ [f_of_Z 2; f1]
    else if t =? 8 then circ [f_of_Z 3; f_of_Z 2; f_of_Z 1; f_of_Z 1]
    else fun i j => rng (rounds * t + i * (t / 2) + j).
  Definition np_odd_block (t rounds : nat) (rng : nat -> F) : mat :=
    if t =? 4 then circ [f1; f_of_Z 2]
    else if t =? 8 then circ [f_of_Z 1; f_of_Z 1; f_of_Z 2; f_of_Z 3]
    else fun i j => rng (rounds * t + t / 2 * (t / 2) + i * (t / 2) + j).

  (** entry (i,j) of the external matrix *)
  Definition np_ext_entry (t rounds : nat) (rng : nat -> F) : mat := fun i j =>
    if (i mod 2 =? 1) && (j mod 2 =? 1) then np_odd_block t rounds rng (i / 2) (j / 2)
    else if (i mod 2 =? 0) && (j mod 2 =? 0) then np_even_block t rounds rng (i / 2) (j / 2) else f0.

  (** draws used for the external matrix *)
  Definition np_mat_draws (t : nat) : nat := if (t =? 4) || (t =? 8) then 0 else 2 * ((t / 2) * (t / 2)).
End SpecNpParams.
