(** * SpecPoly: polynomial functions of one variable, lines, sums over a list *)
From Verif Require Import Base Field Spec.

Section SpecPoly.
  Context {F : Type} {Fo : FOps F}.

  (** c_0 + c_1 x + c_2 x^2 + ... *)
  Definition poly_at (c : list F) (x : F) : F := sumn (length c) (fun k => fmul (nth k c f0) (fpow x k)).

  (** f is a polynomial function of degree at most D *)
  Definition poly_le (D : nat) (f : F -> F) : Prop := exists c, length c <= S D /\ forall x, f x = poly_at c x.

  (** the point a + x b of the line through a in the direction b *)
  Definition line (a b : list F) (x : F) : list F := map (fun j => fadd (nth j a f0) (fmul x (nth j b f0))) (seq 0 (length a)).

  (** the sum of f over the elements of a list *)
  Definition sum_over (L : list F) (f : F -> F) : F := fold_right fadd f0 (map f L).

  (** the list contains every field element once *)
  Definition enumerates (L : list F) : Prop := NoDup L /\ forall x, In x L.

  (** On every line the function succeeds and its outputs are polynomials of degree at most D. *)
  Definition line_degree (t D : nat) (perm : list F -> res (list F)) : Prop :=
    forall a b, length a = t ->
    exists g, (forall x, perm (line a b x) = Ok (g x)) /\ forall i, poly_le D (fun x => nth i (g x) f0).

  (** On every line the function succeeds and each output coordinate sums to zero over the whole field. *)
  Definition line_zero_sum (t : nat) (perm : list F -> res (list F)) : Prop :=
    forall a b L, length a = t -> enumerates L ->
    exists g, (forall x, perm (line a b x) = Ok (g x)) /\ forall i, sum_over L (fun x => nth i (g x) f0) = f0.

  (** Output coordinates of two functions on two lines that agree for more than D values of x agree for all x. *)
  Definition line_agreement (t D : nat) (perm perm' : list F -> res (list F)) : Prop :=
    forall a b a' b' i j, length a = t -> length a' = t ->
    let same x := exists u v, perm (line a b x) = Ok u /\ perm' (line a' b' x) = Ok v /\ nth i u f0 = nth j v f0 in
    forall L, NoDup L -> D < length L -> (forall x, In x L -> same x) -> forall x, same x.

  (** At most D points of a line reach a given value in a given output coordinate, or all of them do. *)
  Definition line_solutions (t D : nat) (perm : list F -> res (list F)) : Prop :=
    forall a b i y, length a = t ->
    let hit x := exists u, perm (line a b x) = Ok u /\ nth i u f0 = y in
    forall L, NoDup L -> D < length L -> (forall x, In x L -> hit x) -> forall x, hit x.
End SpecPoly.
