(** * The permutations use field elements only through +, - and *: C82 *)
From Verif Require Import Base Field ModelPoseidon2 ModelPoseidon ModelGmimc ModelNeptune ModelMerkle SpecUniform F13.
From Verif Require ProofUniform.
Local Open Scope nat_scope.

(** Runs over two structures with related parameters and inputs end in the same way with related outputs.
    Nothing is assumed about F and G beyond the relation: they need not be fields. *)
Theorem C82_poseidon2 :
  forall F G (Fo : FOps F) (Go : FOps G) (R : F -> G -> Prop), respects Fo Go R ->
  forall P Q, p2_related R P Q -> forall dbg x y, Forall2 R x y ->
    same_outcome (Forall2 R) (p2_permutation dbg P x) (p2_permutation dbg Q y) /\
    same_outcome R (p2_compress dbg P x) (p2_compress dbg Q y).
Proof. exact @ProofUniform.u_p2_all. Qed.
Print Assumptions C82_poseidon2.

Theorem C82_poseidon :
  forall F G (Fo : FOps F) (Go : FOps G) (R : F -> G -> Prop), respects Fo Go R ->
  forall P Q, ps_related R P Q -> forall dbg x y, Forall2 R x y ->
    same_outcome (Forall2 R) (ps_permutation dbg P x) (ps_permutation dbg Q y) /\
    same_outcome (Forall2 R) (ps_permutation_not_opt dbg P x) (ps_permutation_not_opt dbg Q y) /\
    same_outcome R (ps_compress dbg P x) (ps_compress dbg Q y).
Proof. exact @ProofUniform.u_ps_all. Qed.
Print Assumptions C82_poseidon.

Theorem C82_gmimc :
  forall F G (Fo : FOps F) (Go : FOps G) (R : F -> G -> Prop), respects Fo Go R ->
  forall P Q, gm_related R P Q -> forall dbg x y, Forall2 R x y ->
    same_outcome (Forall2 R) (gm_permutation dbg P x) (gm_permutation dbg Q y) /\
    same_outcome (Forall2 R) (gm_permutation_not_opt dbg P x) (gm_permutation_not_opt dbg Q y) /\
    same_outcome R (gm_compress dbg P x) (gm_compress dbg Q y).
Proof. exact @ProofUniform.u_gm_all. Qed.
Print Assumptions C82_gmimc.

Theorem C82_neptune :
  forall F G (Fo : FOps F) (Go : FOps G) (R : F -> G -> Prop), respects Fo Go R ->
  forall P Q, np_related R P Q -> forall dbg x y, Forall2 R x y ->
    same_outcome (Forall2 R) (np_permutation dbg P x) (np_permutation dbg Q y) /\
    same_outcome R (np_compress dbg P x) (np_compress dbg Q y).
Proof. exact @ProofUniform.u_np_all. Qed.
Print Assumptions C82_neptune.

(** The tree adds nothing: its root relates whenever the compressions do. *)
Theorem C82_tree :
  forall A B (R : A -> B -> Prop) (h : list A -> res A) (k : list B -> res B),
    (forall l m, Forall2 R l m -> same_outcome R (h l) (k m)) ->
  forall dbg fuel l m, Forall2 R l m -> same_outcome R (fp_accumulate dbg fuel h l) (fp_accumulate dbg fuel k m).
Proof. exact @ProofUniform.u_accumulate. Qed.
Print Assumptions C82_tree.

(** Hence ==, inverses and conversions to integers cannot influence a permutation. *)
Theorem C82_no_comparison :
  forall F (A B : FOps F), same_arithmetic A B -> forall dbg,
  (forall P x, @p2_permutation F A dbg P x = @p2_permutation F B dbg P x) /\
  (forall P x, @ps_permutation F A dbg P x = @ps_permutation F B dbg P x) /\
  (forall P x, @ps_permutation_not_opt F A dbg P x = @ps_permutation_not_opt F B dbg P x) /\
  (forall P x, @gm_permutation F A dbg P x = @gm_permutation F B dbg P x) /\
  (forall P x, @gm_permutation_not_opt F A dbg P x = @gm_permutation_not_opt F B dbg P x) /\
  (forall P x, @np_permutation F A dbg P x = @np_permutation F B dbg P x).
Proof. exact @ProofUniform.same_arithmetic_all. Qed.
Print Assumptions C82_no_comparison.

(** For the constructor of Poseidon this is false: it compares entries with zero when it inverts matrices. *)
Theorem C82_constructor_compares :
  exists F (A B : FOps F) dbg t d rf rp mds rc, is_prime_field A 13 /\ same_arithmetic A B /\
    (exists P, @ps_new F A dbg t d rf rp mds rc = Ok P) /\ @ps_new F B dbg t d rf rp mds rc = Panic.
Proof. exact ProofUniform.constructor_compares. Qed.
Print Assumptions C82_constructor_compares.

(** Computing with integers and reducing once at the end gives the same result. *)
Theorem C82_delayed_reduction :
  forall F (Fo : FOps F) p, is_prime_field Fo p -> forall dbg,
  (forall P x, p2_permutation dbg (p2_map f_of_Z P) (map f_of_Z x) = res_map (map f_of_Z) (p2_permutation (Fo := integer_ops) dbg P x)) /\
  (forall P x, ps_permutation dbg (ps_map f_of_Z P) (map f_of_Z x) = res_map (map f_of_Z) (ps_permutation (Fo := integer_ops) dbg P x)) /\
  (forall P x, gm_permutation dbg (gm_map f_of_Z P) (map f_of_Z x) = res_map (map f_of_Z) (gm_permutation (Fo := integer_ops) dbg P x)) /\
  (forall P x, np_permutation dbg (np_map f_of_Z P) (map f_of_Z x) = res_map (map f_of_Z) (np_permutation (Fo := integer_ops) dbg P x)).
Proof. exact @ProofUniform.reduce_all. Qed.
Print Assumptions C82_delayed_reduction.

(** One list of expressions in the input words and the constants, fixed by the sizes alone, gives the outputs
    in every structure: the computation has no branch on a value. *)
Theorem C82_poseidon2_expressions :
  forall dbg t d beg rp rounds nd sh n, exists o : res (list expr), forall F (Fo : FOps F) (P : Poseidon2Params F) x,
  p2_t P = t -> p2_d P = d -> p2_rounds_f_beginning P = beg -> p2_rounds_p P = rp -> p2_rounds P = rounds ->
  length (p2_diag P) = nd -> shape (p2_rc P) = sh -> length x = n ->
  p2_permutation dbg P x = evaluates (x ++ p2_diag P ++ concat (p2_rc P)) o.
Proof. exact ProofUniform.p2_expr. Qed.
Print Assumptions C82_poseidon2_expressions.

Theorem C82_poseidon_expressions :
  forall dbg t d beg rp rounds s1 s2 s3 s4 s5 s6 n, exists o o' : res (list expr), forall F (Fo : FOps F) (P : PoseidonParams F) x,
  ps_t P = t -> ps_d P = d -> ps_rounds_f_beginning P = beg -> ps_rounds_p P = rp -> ps_rounds P = rounds ->
  shape (ps_mds P) = s1 -> shape (ps_rc P) = s2 -> shape (ps_opt_rc P) = s3 -> shape (ps_w_hat P) = s4 -> shape (ps_v P) = s5 -> shape (ps_m_i P) = s6 ->
  length x = n ->
  let env := x ++ concat (ps_mds P) ++ concat (ps_rc P) ++ concat (ps_opt_rc P) ++ concat (ps_w_hat P) ++ concat (ps_v P) ++ concat (ps_m_i P) in
  ps_permutation dbg P x = evaluates env o /\ ps_permutation_not_opt dbg P x = evaluates env o'.
Proof. exact ProofUniform.ps_expr. Qed.
Print Assumptions C82_poseidon_expressions.

Theorem C82_gmimc_expressions :
  forall dbg t d rounds k n, exists o o' : res (list expr), forall F (Fo : FOps F) (P : GmimcParams F) x,
  gm_t P = t -> gm_d P = d -> gm_rounds P = rounds -> length (gm_rc P) = k -> length x = n ->
  gm_permutation dbg P x = evaluates (x ++ gm_rc P) o /\ gm_permutation_not_opt dbg P x = evaluates (x ++ gm_rc P) o'.
Proof. exact ProofUniform.gm_expr. Qed.
Print Assumptions C82_gmimc_expressions.

Theorem C82_neptune_expressions :
  forall dbg t d beg rp rounds s1 s2 k n, exists o : res (list expr), forall F (Fo : FOps F) (P : NeptuneParams F) x,
  np_t P = t -> np_d P = d -> np_rounds_f_beginning P = beg -> np_rounds_p P = rp -> np_rounds P = rounds ->
  shape (np_rc P) = s1 -> shape (np_m_e P) = s2 -> length (np_mu P) = k -> length x = n ->
  np_permutation dbg P x = evaluates (x ++ concat (np_rc P) ++ concat (np_m_e P) ++ np_mu P ++ [snd (np_abc P)]) o.
Proof. exact ProofUniform.np_expr. Qed.
Print Assumptions C82_neptune_expressions.

(** Over the integers the words of this run are far beyond 13, with negative constants; reduced at the end they are the run over F13. *)
Definition ex_int : Poseidon2Params Z :=
  {| p2_t := 3; p2_d := 5; p2_rounds_f_beginning := 1; p2_rounds_p := 1; p2_rounds_f_end := 1; p2_rounds := 3; p2_diag := [1; 1; -2]%Z;
     p2_mat_internal := []; p2_rc := [[1; 2; -3]; [4]; [50; 60; 70]]%Z |}.
Example C82_ex_reduction : exists y, p2_permutation (Fo := integer_ops) true ex_int [1; 2; -30]%Z = Ok y /\
  Forall (fun z => z < - 10 ^ 200)%Z y /\ p2_permutation true (p2_map (@f_of_Z _ F13_ops) ex_int) (l13 [1; 2; -30]%Z) = Ok (l13 y).
Proof.
  destruct (p2_permutation (Fo := integer_ops) true ex_int [1; 2; -30]%Z) as [y| |] eqn:E; [|vm_compute in E; discriminate E|vm_compute in E; discriminate E].
  exists y. split; [reflexivity|]. split.
  - vm_compute in E. injection E as <-. repeat constructor.
  - unfold l13. rewrite (proj1 (C82_delayed_reduction F13 F13_ops 13 F13_field true)), E. reflexivity.
Qed.
Example C82_ex_related : respects integer_ops F13_ops (fun z a => @f_of_Z _ F13_ops z = a) /\
  p2_related (fun z a => @f_of_Z _ F13_ops z = a) ex_int (p2_map (@f_of_Z _ F13_ops) ex_int).
Proof. split; [apply (ProofUniform.red_respects F13_field)|apply ProofUniform.p2_mapped]. Qed.

(** Even the order of the additions is fixed: one round of GMiMC with two words, the words being variables 0 and 1 and the constant variable 2. *)
Example C82_ex_expressions :
  exists e, gm_permutation (Fo := ProofUniform.expr_ops) true {| gm_t := 2; gm_d := 3; gm_rounds := 1; gm_rc := [Var 2] |} [Var 0; Var 1] = Ok [Var 0; Add (Var 1) e] /\
  e = Mul (Mul (Add (Var 0) (Var 2)) (Add (Var 0) (Var 2))) (Add (Var 0) (Var 2)) /\
  forall F (Fo : FOps F) c x y, gm_permutation true {| gm_t := 2; gm_d := 3; gm_rounds := 1; gm_rc := [c] |} [x; y] = evaluates [x; y; c] (Ok [Var 0; Add (Var 1) e]).
Proof. eexists. split; [reflexivity|]. split; reflexivity. Qed.

(** A run over the integers that panics because of an empty row; it panics over F13 as well. *)
Example C82_ex_panic : same_outcome (Forall2 (fun z a => @f_of_Z _ F13_ops z = a))
  (p2_permutation (Fo := integer_ops) true {| p2_t := 3; p2_d := 5; p2_rounds_f_beginning := 1; p2_rounds_p := 1; p2_rounds_f_end := 1; p2_rounds := 3;
     p2_diag := [1; 1; -2]%Z; p2_mat_internal := []; p2_rc := [[1; 2; -3]; []; [50; 60; 70]]%Z |} [1; 2; 3]%Z) Panic.
Proof. exact Logic.I. Qed.
