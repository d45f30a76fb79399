(** * SpecUniform: what it means that a computation uses field elements only through +, - and * *)
From Verif Require Import Base Field ModelPoseidon2 ModelPoseidon ModelGmimc ModelNeptune.
Local Open Scope nat_scope.

(** R respects zero, one, +, - and *.  Nothing is said about ==, inverses and conversions to integers, and no laws are assumed. *)
Record respects {F G : Type} (Fo : FOps F) (Go : FOps G) (R : F -> G -> Prop) : Prop := {
  rs_0 : R f0 f0;
  rs_1 : R f1 f1;
  rs_add : forall a b a' b', R a a' -> R b b' -> R (fadd a b) (fadd a' b');
  rs_sub : forall a b a' b', R a a' -> R b b' -> R (fsub a b) (fsub a' b');
  rs_mul : forall a b a' b', R a a' -> R b b' -> R (fmul a b) (fmul a' b')
}.

(** two runs end in the same way, with related results *)
Definition same_outcome {A B : Type} (Q : A -> B -> Prop) (x : res A) (y : res B) : Prop :=
  match x, y with
  | Ok a, Ok b => Q a b
  | Panic, Panic => True
  | Fuel, Fuel => True
  | _, _ => False
  end.

Section Related.
  Context {F G : Type} (R : F -> G -> Prop).
  Definition rows_related := Forall2 (Forall2 R).
  Record p2_related (P : Poseidon2Params F) (Q : Poseidon2Params G) : Prop := {
    r2_t : p2_t P = p2_t Q; r2_d : p2_d P = p2_d Q; r2_rounds : p2_rounds P = p2_rounds Q;
    r2_beg : p2_rounds_f_beginning P = p2_rounds_f_beginning Q; r2_p : p2_rounds_p P = p2_rounds_p Q;
    r2_diag : Forall2 R (p2_diag P) (p2_diag Q); r2_rc : rows_related (p2_rc P) (p2_rc Q) }.
  Record ps_related (P : PoseidonParams F) (Q : PoseidonParams G) : Prop := {
    rp_t : ps_t P = ps_t Q; rp_d : ps_d P = ps_d Q; rp_rounds : ps_rounds P = ps_rounds Q;
    rp_beg : ps_rounds_f_beginning P = ps_rounds_f_beginning Q; rp_p : ps_rounds_p P = ps_rounds_p Q;
    rp_mds : rows_related (ps_mds P) (ps_mds Q); rp_rc : rows_related (ps_rc P) (ps_rc Q);
    rp_opt : rows_related (ps_opt_rc P) (ps_opt_rc Q); rp_w : rows_related (ps_w_hat P) (ps_w_hat Q);
    rp_v : rows_related (ps_v P) (ps_v Q); rp_mi : rows_related (ps_m_i P) (ps_m_i Q) }.
  Record gm_related (P : GmimcParams F) (Q : GmimcParams G) : Prop := {
    rg_t : gm_t P = gm_t Q; rg_d : gm_d P = gm_d Q; rg_rounds : gm_rounds P = gm_rounds Q;
    rg_rc : Forall2 R (gm_rc P) (gm_rc Q) }.
  Record np_related (P : NeptuneParams F) (Q : NeptuneParams G) : Prop := {
    rn_t : np_t P = np_t Q; rn_d : np_d P = np_d Q; rn_rounds : np_rounds P = np_rounds Q;
    rn_beg : np_rounds_f_beginning P = np_rounds_f_beginning Q; rn_p : np_rounds_p P = np_rounds_p Q;
    rn_rc : rows_related (np_rc P) (np_rc Q); rn_me : rows_related (np_m_e P) (np_m_e Q);
    rn_mu : Forall2 R (np_mu P) (np_mu Q); rn_gamma : R (snd (np_abc P)) (snd (np_abc Q)) }.
End Related.

(** the same +, - and * on the same elements; ==, inverses and conversions may be anything *)
Definition same_arithmetic {F : Type} (A B : FOps F) : Prop :=
  @f0 F A = @f0 F B /\ @f1 F A = @f1 F B /\
  (forall x y, @fadd F A x y = @fadd F B x y) /\ (forall x y, @fsub F A x y = @fsub F B x y) /\ (forall x y, @fmul F A x y = @fmul F B x y).

(** ** Expressions: a computation without branches *)
Inductive expr : Type := Var (i : nat) | Zero | One | Add (a b : expr) | Sub (a b : expr) | Mul (a b : expr).
Fixpoint eval {F : Type} {Fo : FOps F} (env : list F) (e : expr) : F :=
  match e with
  | Var i => nth i env f0
  | Zero => f0
  | One => f1
  | Add a b => fadd (eval env a) (eval env b)
  | Sub a b => fsub (eval env a) (eval env b)
  | Mul a b => fmul (eval env a) (eval env b)
  end.
(** the outcome of a fixed list of expressions *)
Definition evaluates {F : Type} {Fo : FOps F} (env : list F) (o : res (list expr)) : res (list F) :=
  match o with Ok l => Ok (map (eval env) l) | Panic => Panic | Fuel => Fuel end.
(** the lengths of the rows of a table *)
Definition shape {F : Type} (rows : list (list F)) : list nat := map (@length F) rows.

(** the integers without any reduction *)
Definition integer_ops : FOps Z :=
  {| f0 := 0%Z; f1 := 1%Z; fadd := Z.add; fsub := Z.sub; fmul := Z.mul; finv := fun _ => 0%Z; feqb := fun _ _ => false;
     f_of_Z := fun z => z; f_to_Z := fun z => z |}.

(** parameters and results word by word *)
Definition p2_map {F G : Type} (f : F -> G) (P : Poseidon2Params F) : Poseidon2Params G :=
  {| p2_t := p2_t P; p2_d := p2_d P; p2_rounds_f_beginning := p2_rounds_f_beginning P; p2_rounds_p := p2_rounds_p P;
     p2_rounds_f_end := p2_rounds_f_end P; p2_rounds := p2_rounds P; p2_diag := map f (p2_diag P);
     p2_mat_internal := map (map f) (p2_mat_internal P); p2_rc := map (map f) (p2_rc P) |}.
Definition ps_map {F G : Type} (f : F -> G) (P : PoseidonParams F) : PoseidonParams G :=
  {| ps_t := ps_t P; ps_d := ps_d P; ps_rounds_f_beginning := ps_rounds_f_beginning P; ps_rounds_p := ps_rounds_p P;
     ps_rounds_f_end := ps_rounds_f_end P; ps_rounds := ps_rounds P; ps_mds := map (map f) (ps_mds P); ps_rc := map (map f) (ps_rc P);
     ps_opt_rc := map (map f) (ps_opt_rc P); ps_w_hat := map (map f) (ps_w_hat P); ps_v := map (map f) (ps_v P); ps_m_i := map (map f) (ps_m_i P) |}.
Definition gm_map {F G : Type} (f : F -> G) (P : GmimcParams F) : GmimcParams G :=
  {| gm_t := gm_t P; gm_d := gm_d P; gm_rounds := gm_rounds P; gm_rc := map f (gm_rc P) |}.
Definition map3 {F G : Type} (f : F -> G) (x : F * F * F) : G * G * G := let '(a, b, c) := x in (f a, f b, f c).
Definition np_map {F G : Type} (f : F -> G) (P : NeptuneParams F) : NeptuneParams G :=
  {| np_t := np_t P; np_d := np_d P; np_rounds_f_beginning := np_rounds_f_beginning P; np_rounds_p := np_rounds_p P;
     np_rounds_f_end := np_rounds_f_end P; np_rounds := np_rounds P; np_rc := map (map f) (np_rc P); np_m_e := map (map f) (np_m_e P);
     np_mu := map f (np_mu P); np_abc := map3 f (np_abc P); np_a_ := map3 f (np_a_ P) |}.
Definition res_map {A B : Type} (f : A -> B) (x : res A) : res B :=
  match x with Ok a => Ok (f a) | Panic => Panic | Fuel => Fuel end.
