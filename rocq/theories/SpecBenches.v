(** * SpecBenches: what each benchmark computes, in terms of the reference functions *)
From Verif Require Import Base Field Spec SpecPoseidon2 SpecPoseidon SpecGmimc SpecNeptune SpecMerkle ModelFields ModelInstances ModelNeptune ModelBenches.

Definition bench_modulus (b : bench) : Z :=
  match b with
  | PlainPoseidon J | MtPoseidon J _ => si_p J | PlainPoseidon2 J | MtPoseidon2 J _ => qi_p J
  | PlainNeptune J | MtNeptune J _ => ni_p J | PlainGmimc J | PlainGmimcOpt J | MtGmimc J _ => gi_p J
  end.

Section SpecBenches.
  Context {F : Type} {Fo : FOps F}.
  Definition zs (l : list Z) : list F := map f_of_Z l.

  Definition ps_fun (J : ps_instance) : list F -> list F := ps_ref (si_t J) (si_d J) (si_rf J) (si_rp J) (entry (map zs (si_mds J))) (map zs (si_rc J)).
  Definition p2_fun (J : p2_instance) : list F -> list F := p2_ref (qi_t J) (qi_d J) (qi_rf J) (qi_rp J) (zs (qi_diag J)) (map zs (qi_rc J)).
  Definition gm_fun (rng : nat -> F) (J : gm_instance) : list F -> list F := gm_ref (gi_t J) (gi_d J) (gi_rounds J) (map rng (seq 0 (gi_rounds J))).
  Definition np_fun (J : np_instance) (P : NeptuneParams F) : list F -> list F :=
    np_ref (ni_t J) (ni_d J) (ni_rf J) (ni_rp J) (np_abc P) (entry (np_m_e P)) (np_int_matrix (fun i => fadd (nth i (np_mu P) f0) f1)) (np_rc P).

  (** 0, 1, ..., n - 1 as field elements *)
  Definition counting (n : nat) (l : list F) : Prop := length l = n /\ forall i, i < n -> nth i l f0 = f_of_Z (Z.of_nat i).

  (** the root of the tree over the leaves, with the first output of f on (left, right, padding) as compression *)
  Definition root_of (f : list F -> list F) (pad leaves : list F) (out : list F) : Prop :=
    exists r, merkle_root (fun _ a b => nth 0 (f (a :: b :: pad)) f0) leaves = Some r /\ out = [r].

  Definition bench_result (dbg : bool) (fuel : nat) (rng : nat -> F) (b : bench) (out : list F) : Prop :=
    match b with
    | PlainPoseidon J => exists x, counting (si_t J) x /\ out = ps_fun J x
    | PlainPoseidon2 J => exists x, counting (qi_t J) x /\ out = p2_fun J x
    | PlainGmimc J | PlainGmimcOpt J => exists x, counting (gi_t J) x /\ out = gm_fun rng J x
    | PlainNeptune J => exists x P, counting (ni_t J) x /\ np_new dbg fuel rng (ni_t J) (ni_d J) (ni_rf J) (ni_rp J) = Ok P /\ out = np_fun J P x
    | MtPoseidon J k => exists l, counting (2 ^ k) l /\ root_of (ps_fun J) [f0] l out
    | MtPoseidon2 J k => exists l, counting (2 ^ k) l /\ root_of (p2_fun J) [f0] l out
    | MtGmimc J k => exists l, counting (2 ^ k) l /\ root_of (gm_fun rng J) [f0] l out
    | MtNeptune J k => exists l P, counting (2 ^ k) l /\ np_new dbg fuel rng (ni_t J) (ni_d J) (ni_rf J) (ni_rp J) = Ok P /\ root_of (np_fun J P) [f0; f0] l out
    end.
End SpecBenches.
