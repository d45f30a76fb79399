(** * ProofTop2: exact degrees of the modelled permutations, and of the shipped instances in every word *)
From Verif Require Import Base Field Spec FieldPow SpecPoly SpecTop LinAlg PolyFun TopCoef ProofDegree ProofZeroSum SpecPoseidon2 SpecPoseidon SpecGmimc SpecNeptune
  ModelPoseidon2 ModelPoseidon ModelRandom ModelGmimc ModelNeptune ProofPoseidon2 ProofPoseidon ProofPoseidonFin ProofGmimc ProofNeptuneParams ProofNeptuneBij ProofTop.
Local Open Scope nat_scope.

Section Perms.
  Context {F : Type} {Fo : FOps F} (HF : is_field Fo).

  Lemma top_of_ref t D (perm : list F -> res (list F)) ref top : (forall x, length x = t -> perm x = Ok (ref x)) ->
    (forall s L, tst 1 s L -> tst D (fun x => ref (s x)) (top L)) -> line_top t D perm top.
  Proof.
    intros E H a b La Lb. exists (fun x => ref (line a b x)). split.
    - intros x. apply E. rewrite line_length. exact La.
    - intros i _. apply (H (line a b) b). intros k. pose proof (tst_line HF a b k) as T.
      replace (map (fun j => nth j b f0) (seq 0 (length a))) with b in T; [exact T|].
      rewrite La. apply (list_ext f0); [rewrite map_length, seq_length; exact Lb|]. intros j Hj. rewrite Lb in Hj. rewrite nth_map_seq_d.
      destruct (Nat.ltb_spec j t); [reflexivity|lia].
  Qed.
  Lemma sbox_two d : sbox_degree d -> 2 <= d.
  Proof. unfold sbox_degree. cbn [In]. lia. Qed.

  Theorem p2_line_top dbg t d rf rp (diag : list F) mi rc P : p2_new dbg t d rf rp diag mi rc = Ok P -> (N.of_nat rf + N.of_nat rp < usize_mod)%N ->
    p2_width t -> sbox_degree d -> p2_data_ok t rf rp diag rc -> line_top t (d ^ (rf + rp)) (p2_permutation dbg P) (p2_top t d rf rp diag).
  Proof.
    intros HP HN Ht Hd Hok. destruct (p2_new_ok _ _ _ _ _ _ _ _ _ HP HN) as [_ [He _]].
    apply (top_of_ref t _ _ (p2_ref t d rf rp diag rc)).
    - intros x Lx. exact (p2_permutation_ref HF dbg t d rf rp diag mi rc P x HP HN Ht Hd Hok Lx).
    - intros s L Hs. apply (p2_tops HF); [apply sbox_two, Hd|exact He|exact Hs].
  Qed.
  Theorem ps_line_top dbg t d rf rp (mds rc : list (list F)) P : ps_new dbg t d rf rp mds rc = Ok P -> (N.of_nat rf + N.of_nat rp < usize_mod)%N ->
    dims t t mds -> (forall r, r < rf + rp -> t <= length (nth r rc [])) ->
    line_top t (d ^ (rf + rp)) (ps_permutation dbg P) (ps_top t d rf rp (entry mds)) /\ line_top t (d ^ (rf + rp)) (ps_permutation_not_opt dbg P) (ps_top t d rf rp (entry mds)).
  Proof.
    intros HP HN Hm Hc. destruct (ps_new_ok _ _ _ _ _ _ _ _ HP HN) as [Hd [_ [He _]]].
    split; apply (top_of_ref t _ _ (ps_ref t d rf rp (entry mds) rc)).
    - intros x Lx. apply (ps_permutation_ref HF dbg t d rf rp mds rc P x HP HN Hm Hc). exact Lx.
    - intros s L Hs. apply (ps_tops HF); [apply sbox_two, Hd|exact He|exact Hs].
    - intros x Lx. apply (ps_permutation_ref HF dbg t d rf rp mds rc P x HP HN Hm Hc). exact Lx.
    - intros s L Hs. apply (ps_tops HF); [apply sbox_two, Hd|exact He|exact Hs].
  Qed.
  Theorem gm_line_top dbg rng t d rounds (P : GmimcParams F) : gm_new rng t d rounds = Ok P -> 2 <= t -> 1 <= rounds ->
    line_top t (d ^ rounds) (gm_permutation dbg P) (gm_top t d rounds) /\ line_top t (d ^ rounds) (gm_permutation_not_opt dbg P) (gm_top t d rounds).
  Proof.
    intros HP Ht Hr. destruct (gm_new_ok _ _ _ _ _ HP) as [Hd _].
    split; apply (top_of_ref t _ _ (gm_ref t d rounds (map rng (seq 0 rounds)))).
    - intros x Lx. apply (gm_reference HF dbg rng t d rounds P x HP Lx ltac:(lia) Hr).
    - intros s L Hs. apply (gm_tops HF); [exact Ht|apply sbox_two, Hd|exact Hr|exact Hs].
    - intros x Lx. apply (gm_reference HF dbg rng t d rounds P x HP Lx ltac:(lia) Hr).
    - intros s L Hs. apply (gm_tops HF); [exact Ht|apply sbox_two, Hd|exact Hr|exact Hs].
  Qed.
End Perms.

Theorem np_line_top {F} (Fo : FOps F) p (HP : is_prime_field Fo p) dbg fuel rng t d rf rp (P : NeptuneParams F) :
  np_new dbg fuel rng t d rf rp = Ok P -> (N.of_nat rf + N.of_nat rp < usize_mod)%N -> 1 <= t ->
  line_top t (4 ^ rf * d ^ rp) (np_permutation dbg P)
    (np_top t d rf rp (entry (np_m_e P)) (np_int_matrix (fun i => fadd (nth i (np_mu P) f0) f1))).
Proof.
  intros HN HU Ht. pose proof (prime_field_is_field HP) as HF.
  destruct (np_new_ok HF _ _ _ _ _ _ _ _ HN HU) as [[Hd [He _]] [_ [_ [_ [_ [_ [_ [_ [_ [_ [_ [[k Eabc] _]]]]]]]]]]]].
  apply (top_of_ref HF t _ _ (np_ref t d rf rp (np_abc P) (entry (np_m_e P)) (np_int_matrix (fun i => fadd (nth i (np_mu P) f0) f1)) (np_rc P))).
  - intros x Lx. apply (np_permutation_reference HP dbg fuel rng t d rf rp P x HN HU); [exact Lx|left; exact Ht].
  - intros s L Hs. rewrite Eabc. apply (np_tops HF); [apply sbox_two, Hd|exact He|exact Hs].
Qed.

(** ** Below the number of field elements the coefficient decides the degree *)
Theorem top_line_exact : forall F (Fo : FOps F) p, is_prime_field Fo p ->
  forall t D perm top, line_top t D perm top -> 1 <= D -> (Z.of_nat D < p)%Z -> line_exact t D perm top.
Proof.
  intros F Fo p HP t D perm top H HD Hp a b La Lb. destruct (H a b La Lb) as [g [Eg Hg]]. exists g. split; [exact Eg|].
  intros i Hi. destruct (all_enumerate HP) as [ND All]. apply (top_exact (prime_field_is_field HP) D (nth i (top b) f0) _ (all_elements (p := p)) HD ND).
  - pose proof (enumerates_length HP _ (conj ND All)). lia.
  - apply Hg, Hi.
Qed.
Lemma exact_words F (Fo : FOps F) t D perm top : line_exact t D perm top ->
  (forall j i, j < t -> i < t -> nth i (top (unit_word t j)) f0 <> (f0 : F)) -> word_degree t D perm.
Proof.
  intros H N a j La Hj. destruct (H a (unit_word t j) La) as [g [Eg Hg]]; [unfold unit_word; rewrite map_length, seq_length; reflexivity|].
  exists g. split; [exact Eg|]. intros i Hi. apply (proj2 (Hg i Hi)), N; assumption.
Qed.
