(** * The shift register of the constant generator: C92, C93 *)
From Verif Require Import Base ModelFields ModelGrain.
From Verif Require ProofGrainCycle ProofGrainCycle2 ProofGrainCycle3 ProofGrainDraws ProofGrainDraws2.
Local Open Scope nat_scope.

(** 80 bits, not all of them zero *)
Definition C92_register (s : list bool) : Prop := length s = 80 /\ In true s.
(** parameters that fit into their bit fields; the model of zfill is only meant for those, see ModelGrain *)
Definition C92_fits (field sbox n t rf rp : nat) : Prop :=
  field < 4 /\ sbox < 16 /\ n < 4096 /\ t < 4096 /\ rf < 1024 /\ rp < 1024.
Definition ones (l : list bool) : N := N.of_nat (count_occ Bool.bool_dec l true).
Definition zeros (l : list bool) : N := N.of_nat (count_occ Bool.bool_dec l false).

(** ** C92: different parameters start from different registers, none of them zero *)
Theorem C92_separation :
  forall f b n t rf rp, C92_fits f b n t rf rp -> C92_register (grain_start f b n t rf rp) /\
  forall f' b' n' t' rf' rp', C92_fits f' b' n' t' rf' rp' ->
    grain_start f b n t rf rp = grain_start f' b' n' t' rf' rp' -> (f, b, n, t, rf, rp) = (f', b', n', t', rf', rp').
Proof. exact ProofGrainDraws2.separation. Qed.
Print Assumptions C92_separation.

(** ** C92: every step can be undone *)
Theorem C92_step_bijective :
  forall s s', length s = 80 -> length s' = 80 ->
  (snd (grain_step s) = snd (grain_step s') -> s = s') /\ (exists r, length r = 80 /\ snd (grain_step r) = s').
Proof. exact ProofGrainDraws2.step_bijective. Qed.
Print Assumptions C92_step_bijective.

(** ** C92: all non-zero registers lie on one cycle of 2^80 - 1 steps *)
Theorem C92_one_cycle :
  forall s s', C92_register s -> C92_register s' ->
  exists n, ((N.of_nat n < 2 ^ 80 - 1)%N /\ grain_warm n s = s') /\
    forall m, (N.of_nat m < 2 ^ 80 - 1)%N /\ grain_warm m s = s' -> m = n.
Proof. exact ProofGrainCycle.cycle. Qed.
Print Assumptions C92_one_cycle.

(** ** C92: the inner loop of the generator ends after at most 79 repetitions *)
Theorem C92_no_stall :
  forall s, C92_register s -> exists b s', C92_register s' /\ forall fuel, 79 <= fuel -> grain_next fuel s = Ok (b, s').
Proof. exact ProofGrainCycle2.no_stall. Qed.
Print Assumptions C92_no_stall.

(** ** C92: the output repeats after 2^79 bits, half of which are ones *)
Theorem C92_balanced :
  forall s num fuel, C92_register s -> N.of_nat num = (2 ^ 79)%N -> 79 <= fuel ->
  exists l s', grain_bits fuel num s = Ok (l, s') /\ grain_bits fuel num s' = Ok (l, s') /\ C92_register s' /\
    ones l = (2 ^ 78)%N /\ zeros l = (2 ^ 78)%N.
Proof. exact ProofGrainCycle3.balanced. Qed.
Print Assumptions C92_balanced.

(** 79 repetitions are needed by this register *)
Example C92_ex_79 :
  let s := map (fun i => N.testbit 1070243355296714637478053 (N.of_nat i)) (seq 0 80) in
  C92_register s /\ grain_next 78 s = Fuel /\ exists s', grain_next 79 s = Ok (true, s').
Proof. split; [split; [reflexivity|left; reflexivity]|]. split; [vm_compute; reflexivity|]. eexists. vm_compute. reflexivity. Qed.
(** the zero register never gives a bit *)
Example C92_ex_zero : forall fuel, grain_next fuel (repeat false 80) = Fuel.
Proof. exact ProofGrainDraws2.zero_stalls. Qed.
Example C92_ex_fits : C92_fits 1 0 31 16 8 13 /\ C92_fits 1 1 31 16 8 13 /\ C92_fits 1 0 255 3 8 56.
Proof. unfold C92_fits. lia. Qed.
Example C92_ex_num : exists num, N.of_nat num = (2 ^ 79)%N.
Proof. exists (N.to_nat (2 ^ 79)). apply N2Nat.id. Qed.

(** ** C93: drawing until the value is below p ends *)
Definition C93_ends (n : nat) (p : Z) : Prop :=
  forall s, C92_register s -> exists v s', C92_register s' /\ (0 <= v < p)%Z /\
    forall fuel tries, 79 <= fuel -> (2 ^ 79 <= N.of_nat tries)%N -> draw_below fuel tries n p s = Ok (v, s').
Theorem C93_odd_bits : forall n p, Nat.odd n = true -> (2 ^ (Z.of_nat n - 1) <= p)%Z -> C93_ends n p.
Proof. exact ProofGrainDraws.drawable_odd. Qed.
Print Assumptions C93_odd_bits.
Theorem C93_shipped_fields :
  forall p n, In p [p_babybear; p_bls12; p_bn256; p_goldilocks; p_pallas; p_vesta] ->
  (2 ^ (Z.of_nat n - 1) <= p < 2 ^ Z.of_nat n)%Z -> C93_ends n p.
Proof. exact ProofGrainDraws.drawable_shipped. Qed.
Print Assumptions C93_shipped_fields.

(** ** C93: generate_constants returns (R_F + R_P) t field elements for every width and number of rounds
    that fit into the start value *)
Theorem C93_constants :
  forall p n, In p [p_babybear; p_bls12; p_bn256; p_goldilocks; p_pallas; p_vesta] ->
  (2 ^ (Z.of_nat n - 1) <= p < 2 ^ Z.of_nat n)%Z ->
  forall f b t rf rp, C92_fits f b n t rf rp -> 1 <= t ->
  exists rc s', C92_register s' /\ Forall (fun v => (0 <= v < p)%Z) rc /\ length rc = (rf + rp) * t /\
    forall fuel, (2 ^ 79 <= N.of_nat fuel)%N -> generate_constants fuel n t rf rp p (grain_start f b n t rf rp) = Ok (rc, s').
Proof. exact ProofGrainDraws2.constants. Qed.
Print Assumptions C93_constants.
Theorem C93_constants_poseidon :
  forall p n, In p [p_babybear; p_bls12; p_bn256; p_goldilocks; p_pallas; p_vesta] ->
  (2 ^ (Z.of_nat n - 1) <= p < 2 ^ Z.of_nat n)%Z ->
  forall f b t rf rp, C92_fits f b n t rf rp ->
  exists rc s', C92_register s' /\ Forall (fun v => (0 <= v < p)%Z) rc /\ length rc = (rf + rp) * t /\
    forall fuel, (2 ^ 79 <= N.of_nat fuel)%N -> generate_constants_poseidon fuel n t rf rp p (grain_start f b n t rf rp) = Ok (rc, s').
Proof. exact ProofGrainDraws2.constants_poseidon. Qed.
Print Assumptions C93_constants_poseidon.
(** ** C93: lists of n bit values (create_mds_p, generate_matrix_partial) end as well *)
Theorem C93_lists :
  forall n k s, C92_register s -> exists l s', C92_register s' /\ length l = k /\ Forall (fun v => (0 <= v < 2 ^ Z.of_nat n)%Z) l /\
    forall fuel, 79 <= fuel -> grain_list fuel n k s = Ok (l, s').
Proof. exact ProofGrainDraws2.list_ends. Qed.
Print Assumptions C93_lists.

Example C93_ex_bits : (2 ^ (Z.of_nat 64 - 1) <= p_goldilocks < 2 ^ Z.of_nat 64)%Z /\ (2 ^ (Z.of_nat 254 - 1) <= p_bn256 < 2 ^ Z.of_nat 254)%Z.
Proof. split; split; (apply Z.leb_le || apply Z.ltb_lt); vm_compute; reflexivity. Qed.
(** without a bound on p there is nothing to find: no value is below 0 *)
Example C93_ex_never : forall tries s v s', draw_below 79 tries 3 0 s <> Ok (v, s').
Proof. exact ProofGrainDraws2.never. Qed.
