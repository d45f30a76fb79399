(** * ProofOutput2: the printed text of the shipped instances (C84) *)
From Coq Require Import Ascii String.
From Verif Require Import Base Field Spec ModelPoseidon2 ModelInstances SpecInstances ModelGenerate ModelOutput SpecRust ProofInstances ProofOutput ModelKats.
From Verif Require ProofKats ProofScriptPerm ProofMinPoly2.
Local Open Scope nat_scope.

(** int(x) for every word *)
Lemma of_to_all {F} {Fo : FOps F} {p} (HP : is_prime_field Fo p) (x : list F) : map f_of_Z (map f_to_Z x) = x.
Proof. rewrite map_map. rewrite <- (map_id x) at 2. apply map_ext. intros y. apply (pf_of_to _ _ HP). Qed.
Lemma to_canonical {F} {Fo : FOps F} {p} (HP : is_prime_field Fo p) (x : list F) : canonical p (map f_to_Z x).
Proof. intros v Hv. apply in_map_iff in Hv as [y [<- _]]. apply (pf_range _ _ HP). Qed.

Theorem shipped_output I : In I p2_instances -> forall F (Fo : FOps F), is_prime_field Fo (qi_p I) -> forall dbg,
  exists Q MF y, p2_instance_params dbg I = Ok Q /\ generate_matrix_full (F := F) (qi_t I) = Ok MF /\
  let x := map (fun i => f_of_Z (Z.of_nat i)) (seq 0 (qi_t I)) in
  script_poseidon2 (qi_t I) (qi_d I) (qi_rf I) (qi_rp I) MF (map (map f_of_Z) (qi_mat I)) (map f_of_Z (concat (qi_rc I))) x = Ok y /\
  let text := script_output (qi_p I) (qi_t I) (qi_d I) (qi_rf I) (qi_rp I) (qi_diag I) (qi_mat I) (concat (qi_rc I)) (map f_to_Z x) (map f_to_Z y) in
  (exists diag mat rc,
     rust_vec ("MAT_DIAG" ++ str (qi_t I) ++ "_M_1") text = Some (Ok diag) /\
     rust_mat ("MAT_INTERNAL" ++ str (qi_t I)) text = Some (Ok mat) /\
     rust_mat ("RC" ++ str (qi_t I)) text = Some (Ok rc) /\
     p2_new dbg (qi_t I) (qi_d I) (qi_rf I) (qi_rp I) diag mat rc = Ok Q) /\
  (exists ra rb, test_rows text = Some (ra, rb) /\ eval_vec ra = Ok x /\ exists out, eval_vec rb = Ok out /\ p2_permutation dbg Q x = Ok out).
Proof.
  intros HI F Fo HP dbg. destruct (ProofScriptPerm.p2_script_permutation I HI F Fo HP dbg) as [Q [MF [HQ [HM HS]]]].
  destruct (ProofKats.p2_shipped_permutation I HI F Fo HP dbg) as [Q' [HQ' [HB HR]]]. rewrite HQ in HQ'. injection HQ' as <-.
  set (x := map (fun i => f_of_Z (Z.of_nat i)) (seq 0 (qi_t I)) : list F).
  assert (Lx : length x = qi_t I) by (unfold x; rewrite map_length, seq_length; reflexivity).
  destruct (proj1 HB x Lx) as [y [Ey Ly]].
  exists Q, MF, y. split; [exact HQ|]. split; [exact HM|]. cbv zeta. fold x. rewrite HS by exact Lx. split; [exact Ey|].
  destruct (ProofKats.p2_shipped_consistent I HI) as [HC [HA _]].
  assert (HW : printable (qi_p I) (qi_t I) (qi_diag I) (qi_mat I) (qi_rc I) (map f_to_Z x) (map f_to_Z y)).
  { split.
    - pose proof (ProofMinPoly2.p2_width_ge2 I HI). lia.
    - exact (pc_diag_canonical I HC).
    - exact (pc_mat_canonical I HC).
    - intros row Hr. split; [apply (pc_rc_shape I HC), Hr|apply (pc_rc_canonical I HC), Hr].
    - split; [rewrite map_length; exact Lx|apply (to_canonical HP)].
    - split; [rewrite map_length; exact Ly|apply (to_canonical HP)]. }
  split.
  - destruct (read_tables _ _ (qi_d I) (qi_rf I) (qi_rp I) _ _ _ _ _ HW F Fo) as [E1 [E2 E3]]. rewrite E1, E2, E3. eexists _, _, _.
    split; [reflexivity|]. split; [reflexivity|]. split; [reflexivity|].
    destruct (ProofKats.p2_all I HI) as [P [Hok [Hpr H]]]. destruct (p2_cert_parts P Hok I H) as [_ [_ [Hb _]]].
    rewrite <- (p2_instance_residues dbg I HC Hb). exact HQ.
  - destruct (read_test _ _ (qi_d I) (qi_rf I) (qi_rp I) _ _ _ _ _ HW F Fo) as [ra [rb [E1 [E2 E3]]]]. exists ra, rb.
    rewrite (of_to_all HP) in E2, E3. split; [exact E1|]. split; [exact E2|]. exists y. split; [exact E3|exact Ey].
Qed.

Theorem never_seven :
  ~ (exists p t alpha rf rp diag mat rows a b args, printable p t diag mat rows a b /\
     call_arguments "PoseidonParams" ("POSEIDON_" ++ str t ++ "_PARAMS") (script_output p t alpha rf rp diag mat (concat rows) a b) = Some args /\
     List.length args = 7).
Proof.
  intros (p & t & alpha & rf & rp & diag & mat & rows & a & b & args & HW & E & L). rewrite (read_call _ _ _ _ _ _ _ _ _ _ HW) in E.
  injection E as <-. discriminate.
Qed.
Theorem unbalanced p t alpha rf rp diag mat rows a b : printable p t diag mat rows a b ->
  exists opening closing, brackets (script_output p t alpha rf rp diag mat (concat rows) a b) = Some (opening, closing) /\ closing = opening + 2.
Proof. intros HW. eexists _, _. split; [apply (read_brackets _ _ _ _ _ _ _ _ _ _ HW)|lia]. Qed.
