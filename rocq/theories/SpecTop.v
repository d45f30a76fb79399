(** * SpecTop: the coefficient of the highest power of x that the outputs can have along a line *)
From Verif Require Import Base Field Spec SpecPoly SpecPoseidon2.
Local Open Scope nat_scope.

Section SpecTop.
  Context {F : Type} {Fo : FOps F}.

  (** f is a polynomial function of degree at most D whose coefficient of x^D is l *)
  Definition poly_top (D : nat) (l : F) (f : F -> F) : Prop :=
    exists c, length c <= S D /\ nth D c f0 = l /\ forall x, f x = poly_at c x.

  (** f is a polynomial function of degree D and of no smaller degree *)
  Definition exact_degree (D : nat) (f : F -> F) : Prop := poly_le D f /\ forall E, E < D -> ~ poly_le E f.

  (** On the line through a in the direction b the outputs have the coefficients [top b] at x^D.
      They depend on the direction alone. *)
  Definition line_top (t D : nat) (perm : list F -> res (list F)) (top : list F -> list F) : Prop :=
    forall a b, length a = t -> length b = t ->
    exists g, (forall x, perm (line a b x) = Ok (g x)) /\ forall i, i < t -> poly_top D (nth i (top b) f0) (fun x => nth i (g x) f0).

  (** On every line an output word has degree D exactly if its coefficient in [top b] is not zero. *)
  Definition line_exact (t D : nat) (perm : list F -> res (list F)) (top : list F -> list F) : Prop :=
    forall a b, length a = t -> length b = t ->
    exists g, (forall x, perm (line a b x) = Ok (g x)) /\
      forall i, i < t -> poly_le D (fun x => nth i (g x) f0) /\ (exact_degree D (fun x => nth i (g x) f0) <-> nth i (top b) f0 <> f0).

  (** the direction in which only word j changes *)
  Definition unit_word (t j : nat) : list F := map (fun i => if i =? j then f1 else f0) (seq 0 t).

  (** With all other words fixed to arbitrary values, every output word is a polynomial of degree exactly D in every input word. *)
  Definition word_degree (t D : nat) (perm : list F -> res (list F)) : Prop :=
    forall a j, length a = t -> j < t ->
    exists g, (forall x, perm (line a (unit_word t j) x) = Ok (g x)) /\ forall i, i < t -> exact_degree D (fun x => nth i (g x) f0).

  (** the part of highest degree of a round: x^d everywhere and the matrix; x^d in word 0 and column 0 of the matrix *)
  Definition top_full (t d : nat) (M : @mat F) (l : list F) : list F := mat_apply t t M (map (fun i => fpow (nth i l f0) d) (seq 0 t)).
  Definition top_part (t d : nat) (M : @mat F) (l : list F) : list F := let y := fpow (nth 0 l f0) d in map (fun i => fmul (M i 0) y) (seq 0 t).
  (** h times [full], k times [part], h times [full] *)
  Definition top_rounds (h k : nat) (full part : list F -> list F) (l : list F) : list F := Nat.iter h full (Nat.iter k part (Nat.iter h full l)).

  Definition p2_top (t d rf rp : nat) (diag b : list F) : list F :=
    top_rounds (rf / 2) rp (top_full t d (ext_matrix t)) (top_part t d (int_matrix t diag)) (mat_apply t t (ext_matrix t) b).
  Definition ps_top (t d rf rp : nat) (M : @mat F) (b : list F) : list F := top_rounds (rf / 2) rp (top_full t d M) (top_part t d M) b.
  (** the first output word never has the highest degree; all others have it unless word 0 is constant on the line *)
  Definition gm_top (t d rounds : nat) (b : list F) : list F := map (fun i => if i =? 0 then f0 else fpow (nth 0 b f0) (d ^ rounds)) (seq 0 t).
  (** Neptune: (x1 - x2)^4 in both words of a pair *)
  Definition top_pairs (t : nat) (M : @mat F) (l : list F) : list F :=
    mat_apply t t M (map (fun i => fpow (fsub (nth (2 * (i / 2)) l f0) (nth (2 * (i / 2) + 1) l f0)) 4) (seq 0 t)).
  Definition np_top (t d rf rp : nat) (ME MI : @mat F) (b : list F) : list F :=
    top_rounds (rf / 2) rp (top_pairs t ME) (top_part t d MI) (mat_apply t t ME b).
End SpecTop.
