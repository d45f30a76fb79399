(** * SpecInverse: the four permutations run backwards.

    Written from the published inverses: inverse matrix first, then the inverse S-box, then the constants are
    subtracted, and the rounds in the opposite order. *)
From Verif Require Import Base Field Spec SpecPoseidon2.
Local Open Scope nat_scope.

(** x -> x^e undoes x -> x^d in the field with p elements *)
Definition inverse_exponent (p : Z) (d e : nat) : Prop :=
  e <> 0 /\ ((Z.of_nat d * Z.of_nat e) mod (p - 1) = 1 mod (p - 1))%Z.

(** the exponent of the d-th root: (k (p-1) + 1) / d for the first k that makes this a whole number *)
Definition root_exponent (p d : Z) : Z :=
  match find (fun k => (k * (p - 1) + 1) mod d =? 0)%Z [1; 2; 3; 4; 5; 6]%Z with
  | Some k => ((k * (p - 1) + 1) / d)%Z
  | None => 0%Z
  end.

(** on states of t words, g computes the unique input that f maps to a given output *)
Definition undone_by {F : Type} (t : nat) (f : list F -> res (list F)) (g : list F -> list F) : Prop :=
  (forall x, length x = t -> exists y, f x = Ok y /\ length y = t) /\
  (forall y, length y = t -> length (g y) = t) /\
  (forall x y, length x = t -> length y = t -> (f x = Ok y <-> g y = x)).

Section SpecInv.
  Context {F : Type} {Fo : FOps F}.
  (** word i of a vector *)
  Local Notation "x @ i" := (nth i x f0) (at level 9, i at level 9).

  (** ** Poseidon and Poseidon2: e inverts the exponent, B the matrix *)
  Definition unfull (t e : nat) (B : mat) (c y : list F) : list F :=
    let u := mat_apply t t B y in map (fun i => fsub (fpow (u @ i) e) (c @ i)) (seq 0 t).
  (** Poseidon2: one constant *)
  Definition p2_unpartial (t e : nat) (B : mat) (c y : list F) : list F :=
    let u := mat_apply t t B y in map (fun i => if i =? 0 then fsub (fpow (u @ 0) e) (c @ 0) else u @ i) (seq 0 t).
  (** Poseidon: a constant for every word *)
  Definition ps_unpartial (t e : nat) (B : mat) (c y : list F) : list F :=
    let u := mat_apply t t B y in map (fun i => fsub (if i =? 0 then fpow (u @ 0) e else u @ i) (c @ i)) (seq 0 t).

  (** the inverse of the internal matrix for t >= 4, from its diagonal *)
  Definition int_inverse (t : nat) (diag : list F) : mat := fun i j =>
    let v k := finv (diag @ k) in
    fsub (if i =? j then v i else f0) (fmul (fmul (v i) (v j)) (finv (fadd f1 (sumn t v)))).
  (** EI, II: inverses of the external and of the internal matrix *)
  Definition p2_undo (t e rf rp : nat) (EI II : mat) (rc : list (list F)) (y : list F) : list F :=
    let s := fold_left (fun s r => unfull t e EI (nth r rc []) s) (rev (seq (rf / 2 + rp) (rf / 2))) y in
    let s := fold_left (fun s r => p2_unpartial t e II (nth r rc []) s) (rev (seq (rf / 2) rp)) s in
    let s := fold_left (fun s r => unfull t e EI (nth r rc []) s) (rev (seq 0 (rf / 2))) s in
    mat_apply t t EI s.

  Definition ps_undo (t e rf rp : nat) (B : mat) (rc : list (list F)) (y : list F) : list F :=
    let s := fold_left (fun s r => unfull t e B (nth r rc []) s) (rev (seq (rf / 2 + rp) (rf / 2))) y in
    let s := fold_left (fun s r => ps_unpartial t e B (nth r rc []) s) (rev (seq (rf / 2) rp)) s in
    fold_left (fun s r => unfull t e B (nth r rc []) s) (rev (seq 0 (rf / 2))) s.

  (** ** GMiMC: a Feistel network, no inverse exponent needed *)
  Definition gm_unround (t d : nat) (c : F) (y : list F) : list F :=
    map (fun i => if i =? 0 then y @ 0 else fsub (y @ i) (fpow (fadd (y @ 0) c) d)) (seq 0 t).
  (** the first word moves to the end *)
  Definition gm_unrotate (t : nat) (y : list F) : list F :=
    map (fun i => if S i =? t then y @ 0 else y @ (S i)) (seq 0 t).
  Definition gm_undo (t d rounds : nat) (rc : list F) (y : list F) : list F :=
    fold_left (fun s r => gm_unround t d (nth r rc f0) (gm_unrotate t s)) (rev (seq 0 (rounds - 1)))
      (gm_unround t d (nth (rounds - 1) rc f0) y).

  (** ** Neptune: the pair of words that the S-box maps to y1, y2; i5 = 1/5 *)
  Definition np_unpair (i5 ga y1 y2 : F) : F * F :=
    let b := fsub y1 y2 in
    let w := fadd b ga in
    let z := fmul i5 (fadd (fsub y1 (fmul w w)) (fadd (fadd b b) b)) in
    (fsub (fadd z z) (fadd b (fmul z z)), fsub z (fadd b (fmul z z))).
  Definition np_unsbox (t : nat) (i5 ga : F) (y : list F) : list F :=
    map (fun i => if Nat.even i then fst (np_unpair i5 ga (y @ i) (y @ (S i)))
                  else snd (np_unpair i5 ga (y @ (i - 1)) (y @ i))) (seq 0 t).
  Definition unadd (t : nat) (c y : list F) : list F := map (fun i => fsub (y @ i) (c @ i)) (seq 0 t).
  Definition np_unext (t : nat) (i5 ga : F) (EI : mat) (c y : list F) : list F :=
    np_unsbox t i5 ga (mat_apply t t EI (unadd t c y)).
  Definition np_unint (t e : nat) (II : mat) (c y : list F) : list F :=
    let u := mat_apply t t II (unadd t c y) in map (fun i => if i =? 0 then fpow (u @ 0) e else u @ i) (seq 0 t).
  Definition np_undo (t e rf rp : nat) (i5 ga : F) (EI II : mat) (rc : list (list F)) (y : list F) : list F :=
    let s := fold_left (fun s r => np_unext t i5 ga EI (nth r rc []) s) (rev (seq (rf / 2 + rp) (rf / 2))) y in
    let s := fold_left (fun s r => np_unint t e II (nth r rc []) s) (rev (seq (rf / 2) rp)) s in
    let s := fold_left (fun s r => np_unext t i5 ga EI (nth r rc []) s) (rev (seq 0 (rf / 2))) s in
    mat_apply t t EI s.
End SpecInv.
