(** * SpecFields: vocabulary for statements about the declared fields and shipped exponents *)
From Verif Require Import Base Field Spec ModelFields ModelInstances.

(** modulus and generator of each declared field *)
Definition declared_fields : list (Z * Z) :=
  [(p_babybear, g_babybear); (p_bls12, g_bls12); (p_bn256, g_bn256); (p_goldilocks, g_goldilocks); (p_pallas, g_pallas); (p_vesta, g_vesta)].

(** d is coprime to p-1, and no smaller e >= 3 is *)
Definition least_exponent (p : Z) (d : nat) : Prop :=
  3 <= d /\ Z.gcd (Z.of_nat d) (p - 1) = 1%Z /\ forall e, 3 <= e < d -> Z.gcd (Z.of_nat e) (p - 1) <> 1%Z.

(** modulus and S-box degree of every shipped instance of the four families *)
Definition shipped_sboxes : list (Z * nat) :=
  map (fun I => (gi_p I, gi_d I)) gm_instances ++ map (fun I => (ni_p I, ni_d I)) np_instances ++
  map (fun I => (qi_p I, qi_d I)) p2_instances ++ map (fun I => (si_p I, si_d I)) ps_instances.

(** two different inputs of length t with the same output *)
Definition collision {F : Type} (t : nat) (f : list F -> res (list F)) : Prop :=
  exists x y out, length x = t /\ length y = t /\ x <> y /\ f x = Ok out /\ f y = Ok out.

(** 0, 1, ..., t-1 *)
Definition iota (t : nat) : list Z := map Z.of_nat (seq 0 t).
