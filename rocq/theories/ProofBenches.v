(** * ProofBenches: every benchmark runs and computes the reference value *)
From Verif Require Import Base Field Spec SpecPoseidon2 SpecPoseidon SpecGmimc SpecNeptune SpecMerkle ModelFields ModelInstances
  ModelPoseidon2 ModelPoseidon ModelRandom ModelGmimc ModelNeptune ModelMerkle ModelBenches SpecBenches.
From Verif Require ProofKats ProofMerkleHash ProofMerkleAcc ProofPoseidon2Extra ProofGmimc ProofNeptuneBij ProofNeptuneFin ProofNeptuneParams ProofDegree.
Local Open Scope nat_scope.

(** the instances used, with what the proof needs to know about them *)
Definition shipped (b : bench) : Prop :=
  match b with
  | PlainPoseidon J => In J ps_instances | PlainPoseidon2 J => In J p2_instances
  | PlainNeptune J => In J np_instances | PlainGmimc J | PlainGmimcOpt J => In J gm_instances
  | MtPoseidon J k => In J ps_instances /\ si_t J = 3 /\ k <= 63 | MtPoseidon2 J k => In J p2_instances /\ qi_t J = 3 /\ k <= 63
  | MtNeptune J k => In J np_instances /\ ni_t J = 4 /\ k <= 63 | MtGmimc J k => In J gm_instances /\ gi_t J = 3 /\ k <= 63
  end.

Definition np_shape (J : np_instance) : bool :=
  ((ni_d J =? 3) || (ni_d J =? 5) || (ni_d J =? 7)) && (ni_rf J mod 2 =? 0) && (ni_t J mod 2 =? 0) && (1 <=? ni_t J) &&
  (N.of_nat (ni_rf J) + N.of_nat (ni_rp J) <? usize_mod)%N.
Lemma np_shapes : forallb np_shape np_instances = true. Proof. vm_compute. reflexivity. Qed.
Definition gm_shape (J : gm_instance) : bool := ((gi_d J =? 3) || (gi_d J =? 5) || (gi_d J =? 7)) && (1 <=? gi_t J) && (1 <=? gi_rounds J).
Lemma gm_shapes : forallb gm_shape gm_instances = true. Proof. vm_compute. reflexivity. Qed.

Section B.
  Context {F : Type} {Fo : FOps F} {p : Z} (HP : is_prime_field Fo p).
  Let HF := prime_field_is_field HP.

  Lemma bench_counting n : counting n (bench_input n : list F).
  Proof.
    unfold bench_input. split; [rewrite map_length, seq_length; reflexivity|]. intros i Hi. rewrite ProofDegree.nth_map_seq_d. apply Nat.ltb_lt in Hi. rewrite Hi. reflexivity.
  Qed.
  Lemma sample_counting n : counting n (sample_set n : list F).
  Proof. exact (bench_counting n). Qed.
  Lemma bench_length n : length (bench_input n : list F) = n. Proof. apply bench_counting. Qed.

  Lemma tree_runs dbg fuel (compress : list F -> res F) (f : list F -> list F) pad k : (forall a b, compress [a; b] = Ok (nth 0 (f (a :: b :: pad)) f0)) -> 64 <= fuel -> k <= 63 ->
    exists r, fp_accumulate dbg fuel compress (sample_set (2 ^ k)) = Ok r /\ root_of f pad (sample_set (2 ^ k)) [r].
  Proof.
    intros HC Hf Hk. assert (L : length (sample_set (2 ^ k) : list F) = 2 ^ k) by apply sample_counting.
    destruct (ProofMerkleAcc.fp_acc_root dbg fuel compress (fun a b => nth 0 (f (a :: b :: pad)) f0) (sample_set (2 ^ k))) as [r [Hr Er]].
    - exact HC.
    - intros E. rewrite E in L. cbn [length] in L. pose proof (Nat.pow_nonzero 2 k). lia.
    - rewrite L. replace (N.of_nat (2 ^ k)) with (2 ^ N.of_nat k)%N; [apply N.pow_le_mono_r; lia|]. rewrite Nat2N.inj_pow. reflexivity.
    - exact Hf.
    - exists r. split; [exact Er|]. exists r. split; [exact Hr|reflexivity].
  Qed.

  Lemma ps_params_t dbg J (P : PoseidonParams F) : ps_instance_params dbg J = Ok P -> ps_t P = si_t J.
  Proof.
    unfold ps_instance_params. destruct (mat_literal (si_bytes J) (si_mds J)) as [m| |]; cbn [bind]; try discriminate.
    destruct (mat_literal (si_bytes J) (si_rc J)) as [c| |]; cbn [bind]; try discriminate. apply ProofMerkleHash.ps_new_t.
  Qed.
  Lemma p2_params_t dbg J (P : Poseidon2Params F) : p2_instance_params dbg J = Ok P -> p2_t P = qi_t J.
  Proof.
    unfold p2_instance_params. destruct (vec_literal (qi_bytes J) (qi_diag J)) as [v| |]; cbn [bind]; try discriminate.
    destruct (mat_literal (qi_bytes J) (qi_mat J)) as [m| |]; cbn [bind]; try discriminate.
    destruct (mat_literal (qi_bytes J) (qi_rc J)) as [c| |]; cbn [bind]; try discriminate. apply ProofPoseidon2Extra.p2_get_t_new.
  Qed.

  Lemma fold_len {A} t (step : list F -> A -> list F) : (forall s a, length (step s a) = t) -> forall l s, length s = t -> length (fold_left step l s) = t.
  Proof. intros H l. induction l as [|a l IH]; intros s Hs; cbn [fold_left]; [exact Hs|apply IH, H]. Qed.
  Lemma ps_fun_length J x : length x = si_t J -> length (ps_fun J x : list F) = si_t J.
  Proof. intros H. unfold ps_fun, ps_ref. repeat (apply fold_len; [intros; unfold ps_ref_full, ps_ref_partial; apply LinAlg.mat_apply_length|]). exact H. Qed.
  Lemma p2_fun_length J x : length (p2_fun J x : list F) = qi_t J.
  Proof. unfold p2_fun, p2_ref. repeat (apply fold_len; [intros; unfold p2_ref_full, p2_ref_partial; apply LinAlg.mat_apply_length|]). apply LinAlg.mat_apply_length. Qed.
  Lemma gm_fun_length rng J x : length (gm_fun rng J x : list F) = gi_t J.
  Proof. unfold gm_fun, gm_ref, gm_ref_round. rewrite map_length, seq_length. reflexivity. Qed.
  Lemma np_fun_length J P x : length (np_fun J P x : list F) = ni_t J.
  Proof. unfold np_fun, np_ref. cbv zeta. repeat (apply fold_len; [intros; unfold np_ref_ext, np_ref_int; rewrite map_length, seq_length; reflexivity|]). apply LinAlg.mat_apply_length. Qed.

  Lemma idx0 (l : list F) n : length l = n -> 1 <= n -> idx l 0 = Ok (nth 0 l f0).
  Proof. destruct l; cbn [length]; intros H1 H2; [lia|reflexivity]. Qed.

  Lemma ps_runs dbg J : In J ps_instances -> si_p J = p -> exists P, ps_instance_params dbg J = Ok P /\ ps_t P = si_t J /\
    forall x : list F, length x = si_t J -> ps_permutation dbg P x = Ok (ps_fun J x).
  Proof.
    intros HJ E. destruct (ProofKats.ps_shipped_permutation J HJ) as [_ A]. destruct (A F Fo (eq_rect_r (fun q => is_prime_field Fo q) HP E) dbg) as [P [EP [H _]]].
    exists P. split; [exact EP|]. split; [exact (ps_params_t dbg J P EP)|]. intros x Lx. apply (H x Lx).
  Qed.
  Lemma p2_runs dbg J : In J p2_instances -> qi_p J = p -> exists P, p2_instance_params dbg J = Ok P /\ p2_t P = qi_t J /\
    forall x : list F, length x = qi_t J -> p2_permutation dbg P x = Ok (p2_fun J x).
  Proof.
    intros HJ E. destruct (ProofKats.p2_shipped_permutation J HJ F Fo (eq_rect_r (fun q => is_prime_field Fo q) HP E) dbg) as [P [EP [_ H]]].
    exists P. split; [exact EP|]. split; [exact (p2_params_t dbg J P EP)|]. intros x Lx. apply (H x Lx).
  Qed.
  Lemma gm_runs dbg rng J : In J gm_instances -> exists P, gm_new rng (gi_t J) (gi_d J) (gi_rounds J) = Ok P /\ gm_t P = gi_t J /\
    forall x : list F, length x = gi_t J -> gm_permutation dbg P x = Ok (gm_fun rng J x) /\ gm_permutation_not_opt dbg P x = Ok (gm_fun rng J x).
  Proof.
    intros HJ. pose proof (proj1 (forallb_forall _ _) gm_shapes J HJ) as S. unfold gm_shape in S.
    apply andb_true_iff in S. destruct S as [S S3]. apply andb_true_iff in S. destruct S as [S1 S2]. apply Nat.leb_le in S2. apply Nat.leb_le in S3.
    unfold gm_new. rewrite S1. eexists. split; [reflexivity|]. split; [reflexivity|]. intros x Lx.
    apply (ProofGmimc.gm_reference HF dbg rng (gi_t J) (gi_d J) (gi_rounds J)); [unfold gm_new; rewrite S1; reflexivity|exact Lx|exact S2|exact S3].
  Qed.
  Lemma np_runs dbg fuel rng J : In J np_instances -> (forall q, exists k, k < fuel /\ rng (q + k) <> (f0 : F)) ->
    exists P, np_new dbg fuel rng (ni_t J) (ni_d J) (ni_rf J) (ni_rp J) = Ok P /\ np_t P = ni_t J /\
    forall x : list F, length x = ni_t J -> np_permutation dbg P x = Ok (np_fun J P x).
  Proof.
    intros HJ HR. pose proof (proj1 (forallb_forall _ _) np_shapes J HJ) as S. unfold np_shape in S.
    repeat (apply andb_true_iff in S; destruct S as [S ?]).
    assert (U : (N.of_nat (ni_rf J) + N.of_nat (ni_rp J) < usize_mod)%N) by (apply N.ltb_lt; assumption).
    assert (T : 1 <= ni_t J) by (apply Nat.leb_le; assumption).
    destruct (ProofNeptuneFin.np_new_outcome HF dbg fuel rng (ni_t J) (ni_d J) (ni_rf J) (ni_rp J) U) as [_ C].
    destruct C as [P EP]; [exact HR| |].
    { split; [apply ProofPoseidon2.degree_bool; exact S|]. split; apply Nat.eqb_eq; assumption. }
    exists P. split; [exact EP|]. split.
    - destruct (Nat.eq_dec (np_t P) (ni_t J)) as [e|n]; [exact e|]. exfalso.
      pose proof (proj1 (ProofNeptuneBij.np_permutation_reference HP dbg fuel rng _ _ _ _ P (repeat f0 (ni_t J)) EP U) (repeat_length _ _) (or_introl T)) as A.
      rewrite ProofNeptuneBij.np_permutation_length_panic in A; [discriminate A|rewrite repeat_length; congruence].
    - intros x Lx. exact (proj1 (ProofNeptuneBij.np_permutation_reference HP dbg fuel rng _ _ _ _ P x EP U) Lx (or_introl T)).
  Qed.

  Theorem bench_runs dbg fuel rng b : shipped b -> bench_modulus b = p -> 64 <= fuel -> (forall q, exists k, k < fuel /\ rng (q + k) <> (f0 : F)) ->
    exists out, run_bench dbg fuel rng b = Ok out /\ bench_result dbg fuel rng b out.
  Proof.
    intros HS HM Hf HR. destruct b as [J|J|J|J|J|J k|J k|J k|J k]; cbn [shipped bench_modulus run_bench bench_result] in *.
    - destruct (ps_runs dbg J HS HM) as [P [EP [ET H]]]. rewrite EP. cbn [bind]. unfold ps_get_t. rewrite ET, H by apply bench_length.
      eexists. split; [reflexivity|]. eexists. split; [apply bench_counting|reflexivity].
    - destruct (p2_runs dbg J HS HM) as [P [EP [ET H]]]. rewrite EP. cbn [bind]. unfold p2_get_t. rewrite ET, H by apply bench_length.
      eexists. split; [reflexivity|]. eexists. split; [apply bench_counting|reflexivity].
    - destruct (np_runs dbg fuel rng J HS HR) as [P [EP [ET H]]]. rewrite EP. cbn [bind]. unfold np_get_t. rewrite ET, H by apply bench_length.
      eexists. split; [reflexivity|]. exists (bench_input (ni_t J)), P. split; [apply bench_counting|]. split; reflexivity.
    - destruct (gm_runs dbg rng J HS) as [P [EP [ET H]]]. rewrite EP. cbn [bind]. unfold gm_get_t. rewrite ET. destruct (H (bench_input (gi_t J)) (bench_length _)) as [_ ->].
      eexists. split; [reflexivity|]. eexists. split; [apply bench_counting|reflexivity].
    - destruct (gm_runs dbg rng J HS) as [P [EP [ET H]]]. rewrite EP. cbn [bind]. unfold gm_get_t. rewrite ET. destruct (H (bench_input (gi_t J)) (bench_length _)) as [-> _].
      eexists. split; [reflexivity|]. eexists. split; [apply bench_counting|reflexivity].
    - destruct HS as [HS [Ht Hk]]. destruct (ps_runs dbg J HS HM) as [P [EP [ET H]]]. rewrite EP. cbn [bind].
      destruct (tree_runs dbg fuel (ps_compress dbg P) (ps_fun J) [f0] k) as [r [Er Hr]]; [|exact Hf|exact Hk|].
      { intros a b. unfold ps_compress. cbn [idx nth_error bind]. rewrite H by (cbn [length]; lia). cbn [bind]. apply (idx0 _ (si_t J)); [apply ps_fun_length; cbn [length]; lia|lia]. }
      rewrite Er. cbn [bind]. eexists. split; [reflexivity|]. eexists. split; [apply sample_counting|exact Hr].
    - destruct HS as [HS [Ht Hk]]. destruct (p2_runs dbg J HS HM) as [P [EP [ET H]]]. rewrite EP. cbn [bind].
      destruct (tree_runs dbg fuel (p2_compress dbg P) (p2_fun J) [f0] k) as [r [Er Hr]]; [|exact Hf|exact Hk|].
      { intros a b. unfold p2_compress. cbn [idx nth_error bind]. rewrite H by (cbn [length]; lia). cbn [bind]. apply (idx0 _ (qi_t J)); [apply p2_fun_length|lia]. }
      rewrite Er. cbn [bind]. eexists. split; [reflexivity|]. eexists. split; [apply sample_counting|exact Hr].
    - destruct HS as [HS [Ht Hk]]. destruct (np_runs dbg fuel rng J HS HR) as [P [EP [ET H]]]. rewrite EP. cbn [bind].
      destruct (tree_runs dbg fuel (np_compress dbg P) (np_fun J P) [f0; f0] k) as [r [Er Hr]]; [|exact Hf|exact Hk|].
      { intros a b. unfold np_compress. cbn [idx nth_error bind]. rewrite H by (cbn [length]; lia). cbn [bind]. apply (idx0 _ (ni_t J)); [apply np_fun_length|lia]. }
      rewrite Er. cbn [bind]. eexists. split; [reflexivity|]. eexists. exists P. split; [apply sample_counting|]. split; [reflexivity|exact Hr].
    - destruct HS as [HS [Ht Hk]]. destruct (gm_runs dbg rng J HS) as [P [EP [ET H]]]. rewrite EP. cbn [bind].
      destruct (tree_runs dbg fuel (gm_compress dbg P) (gm_fun rng J) [f0] k) as [r [Er Hr]]; [|exact Hf|exact Hk|].
      { intros a b. unfold gm_compress. cbn [idx nth_error bind]. rewrite (proj1 (H [a; b; f0] ltac:(cbn [length]; lia))). cbn [bind]. apply (idx0 _ (gi_t J)); [apply gm_fun_length|lia]. }
      rewrite Er. cbn [bind]. eexists. split; [reflexivity|]. eexists. split; [apply sample_counting|exact Hr].
  Qed.
End B.

(** every benchmark of the repository *)
Ltac in_at :=
  lazymatch goal with |- In ?x ?l =>
    let rec go k :=
      (let y := eval cbv [nth_error ps_instances p2_instances np_instances gm_instances app gm_instances_babybear gm_instances_bls12
                          gm_instances_bn256 gm_instances_goldilocks gm_instances_pallas gm_instances_vesta] in (nth_error l k) in
       lazymatch y with
       | Some ?z => tryif constr_eq z x then exact (nth_error_In l k (eq_refl (Some x))) else go (S k)
       end) in go 0 end.
Lemma all_shipped : Forall (fun f => Forall (fun b => shipped b /\ bench_modulus b = fst f) (snd f)) bench_files.
Proof.
  unfold bench_files. cbn [map app].
  repeat (apply Forall_cons; [cbn [fst snd]; repeat (apply Forall_cons; [split; [|reflexivity]|]); try apply Forall_nil|]); [..|apply Forall_nil]; cbn [shipped];
  lazymatch goal with |- In _ _ => in_at | |- _ /\ _ => split; [in_at|split; [reflexivity|lia]] end.
Qed.

Theorem all_benches f b : In f bench_files -> In b (snd f) ->
  forall F (Fo : FOps F), is_prime_field Fo (fst f) -> forall dbg fuel rng, 64 <= fuel -> (forall q, exists k, k < fuel /\ rng (q + k) <> (f0 : F)) ->
  exists out, run_bench dbg fuel rng b = Ok out /\ bench_result dbg fuel rng b out.
Proof.
  intros Hf Hb F Fo HP dbg fuel rng H64 HR. destruct (proj1 (Forall_forall _ _) (proj1 (Forall_forall _ _) all_shipped f Hf) b Hb) as [HS HM]. exact (bench_runs HP dbg fuel rng b HS HM H64 HR).
Qed.

Theorem all_moduli : Forall (fun f => Forall (fun b => bench_modulus b = fst f) (snd f)) bench_files.
Proof. eapply Forall_impl; [|exact all_shipped]. intros f Hf. eapply Forall_impl; [|exact Hf]. intros b [_ H]. exact H. Qed.
