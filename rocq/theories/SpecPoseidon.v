(** * SpecPoseidon: reference description of Poseidon, independent of the model *)
From Verif Require Import Base Field Spec.

Section SpecPs.
  Context {F : Type} {Fo : FOps F}.

  (** one full round: add constants, x^d everywhere, MDS matrix *)
  Definition ps_ref_full (t d : nat) (M : mat) (c x : list F) : list F :=
    mat_apply t t M (map (fun i => fpow (fadd (nth i x f0) (nth i c f0)) d) (seq 0 t)).

  (** one partial round: add constants, x^d on element 0 only, MDS matrix *)
  Definition ps_ref_partial (t d : nat) (M : mat) (c x : list F) : list F :=
    mat_apply t t M
      (map (fun i => let y := fadd (nth i x f0) (nth i c f0) in if i =? 0 then fpow y d else y) (seq 0 t)).

  (** rf/2 full, rp partial, rf/2 full rounds *)
  Definition ps_ref (t d rf rp : nat) (M : mat) (rc : list (list F)) (x : list F) : list F :=
    let full s r := ps_ref_full t d M (nth r rc []) s in
    let part s r := ps_ref_partial t d M (nth r rc []) s in
    let s := fold_left full (seq 0 (rf / 2)) x in
    let s := fold_left part (seq (rf / 2) rp) s in
    fold_left full (seq (rf / 2 + rp) (rf / 2)) s.

  (** M without its first row and first column *)
  Definition drop0 (M : @mat F) : mat := fun i j => M (S i) (S j).

  (** M^k for an n x n matrix *)
  Fixpoint mat_pow (n : nat) (M : @mat F) (k : nat) : mat :=
    match k with O => mat_id | S k' => mat_mul n M (mat_pow n M k') end.

  (** every leading principal block is nonsingular *)
  Definition leading_blocks (n : nat) (M : @mat F) : Prop :=
    forall k, 1 <= k <= n -> nonsingular k M.

  (** A partial round with the constant moved behind the S-box:
      x^d on element 0, then c added to element 0, then the matrix. *)
  Definition post_round (t d : nat) (M : mat) (c : F) (x : list F) : list F :=
    mat_apply t t M (map (fun i => if i =? 0 then fadd (fpow (nth 0 x f0) d) c else nth i x f0) (seq 0 t)).
End SpecPs.
