(** * The degree of Neptune with four words: C81 *)
From Verif Require Import Base Field Spec SpecPoly SpecTop SpecFour SpecNeptune ModelRandom ModelNeptune ModelFields ModelInstances Fp Primes.
From Verif Require ProofFour.
Local Open Scope nat_scope.

(** Three external rounds with four words multiply the degree by 56, not by 4^3 = 64. *)
Theorem C81_degree :
  forall F (Fo : FOps F) p, is_prime_field Fo p ->
  forall dbg fuel rng d rf rp (P : NeptuneParams F),
    np_new dbg fuel rng 4 d rf rp = Ok P -> (N.of_nat rf + N.of_nat rp < usize_mod)%N ->
    line_degree 4 (four_bound (rf / 2) * four_bound (rf / 2) * d ^ rp) (np_permutation dbg P).
Proof. exact @ProofFour.np4_degree. Qed.
Print Assumptions C81_degree.

(** Hence no output word has the degree of C65 on any line once there are six external rounds. *)
Theorem C81_not_reached :
  forall F (Fo : FOps F) p, is_prime_field Fo p ->
  forall dbg fuel rng d rf rp (P : NeptuneParams F),
    np_new dbg fuel rng 4 d rf rp = Ok P -> (N.of_nat rf + N.of_nat rp < usize_mod)%N -> 6 <= rf ->
    forall a b g i, length a = 4 -> length b = 4 -> (forall x, np_permutation dbg P (line a b x) = Ok (g x)) -> i < 4 ->
    ~ exact_degree (4 ^ rf * d ^ rp) (fun x => nth i (g x) f0).
Proof. exact @ProofFour.np4_not_reached. Qed.
Print Assumptions C81_not_reached.

(** With six external rounds, as in all shipped instances, the coefficient of x^(56 * 56 * d^rp) has an explicit formula. *)
Theorem C81_top :
  forall F (Fo : FOps F) p, is_prime_field Fo p ->
  forall dbg fuel rng d rp (P : NeptuneParams F),
    np_new dbg fuel rng 4 d 6 rp = Ok P -> (N.of_nat 6 + N.of_nat rp < usize_mod)%N ->
    line_top 4 (56 * 56 * d ^ rp) (np_permutation dbg P)
      (np4_top d rp (entry (np_m_e P)) (np_int_matrix (fun i => fadd (nth i (np_mu P) f0) f1))).
Proof. exact @ProofFour.np4_line_top. Qed.
Print Assumptions C81_top.

(** The four shipped instances with four words: 56 * 56 * d^rp is the degree of every output word in every input word. *)
Theorem C81_words :
  forall I, In I np_instances -> ni_t I = 4 ->
  forall F (Fo : FOps F), is_prime_field Fo (ni_p I) -> forall dbg fuel rng (Q : NeptuneParams F),
  np_new dbg fuel rng (ni_t I) (ni_d I) (ni_rf I) (ni_rp I) = Ok Q -> nth 0 (np_mu Q) f0 <> f0 ->
  word_degree 4 (56 * 56 * ni_d I ^ ni_rp I) (np_permutation dbg Q).
Proof. exact @ProofFour.np4_shipped_words. Qed.
Print Assumptions C81_words.

(** Checked by differences of order n, that is, n! times the coefficient of x^n for a polynomial of degree n:
    the external matrix and three external rounds over Goldilocks on the line x -> (1 + x, 2, 3, 4). *)
Definition FG := fp_ops P_goldilocks P_goldilocks_ok.
Definition ex_np4 := np_new (Fo := FG) true 1 (fun k => @f_of_Z _ FG (7 * Z.of_nat k + 2)) 4 7 6 0.
Definition ex_word (x : Z) : Z :=
  match P <- ex_np4 ;; s <- np_external_matmul (Fo := FG) P (map (@f_of_Z _ FG) [1 + x; 2; 3; 4]%Z) ;; for_range 0 3 (np_external_round (Fo := FG) P) s with
  | Ok u => @f_to_Z _ FG (nth 0 u (@f0 _ FG)) | _ => 0%Z end.
Fixpoint diffs (n : nat) (l : list Z) : list Z :=
  match n with O => l | S n' => diffs n' (map (fun q => ((snd q - fst q) mod p_goldilocks)%Z) (combine l (tl l))) end.
Definition factorial (n : nat) : Z := fold_left (fun a k => (a * Z.of_nat k mod p_goldilocks)%Z) (seq 1 n) 1%Z.
Definition ex_values : list Z := map (fun k => ex_word (Z.of_nat k)) (seq 0 66).
Example C81_ex :
  diffs 56 ex_values = repeat (factorial 56 * (@f_to_Z _ FG (four_coef (Fo := FG) (@f_of_Z _ FG 2) (@f_of_Z _ FG 1))) mod p_goldilocks)%Z 10 /\
  (3 * (12 * (2 ^ 4 - 1) ^ 3 * (2 * 2 + 1)) ^ 4 mod p_goldilocks = @f_to_Z _ FG (four_coef (Fo := FG) (@f_of_Z _ FG 2) (@f_of_Z _ FG 1)))%Z.
Proof. split; vm_compute; reflexivity. Qed.

Example C81_ex_shipped :
  map four_bound [0;1;2;3;4;5;6] = [1; 4; 16; 56; 224; 896; 3136] /\
  map (fun I => (ni_d I, ni_rf I, ni_rp I)) (filter (fun I => ni_t I =? 4) np_instances) = [(5,6,68);(5,6,69);(5,6,69);(5,6,68)] /\
  is_prime_field (fp_ops P_bls12 P_bls12_ok) p_bls12 /\
  match np_new (Fo := fp_ops P_bls12 P_bls12_ok) true 1 (fun k => @f_of_Z _ (fp_ops P_bls12 P_bls12_ok) (Z.of_nat k)) 4 5 6 69 with
  | Ok Q => map (@f_to_Z _ (fp_ops P_bls12 P_bls12_ok)) (np_mu Q) | _ => [] end = [299; 300; 301; 302]%Z.
Proof.
  split; [vm_compute; reflexivity|]. split; [vm_compute; reflexivity|]. split; [|vm_compute; reflexivity].
  exact (fp_is_prime_field P_bls12 P_bls12_ok prime_bls12 ltac:(reflexivity)).
Qed.
