(** * ProofConst: every round constant matters on every input (C83) *)
From Verif Require Import Base Field Spec FieldPow LinAlg LoopLemmas Bij ModelUtils ModelPoseidon2 ModelPoseidon ModelGmimc ModelNeptune
  SpecPoseidon2 SpecPoseidon SpecGmimc SpecNeptune SpecConst Poly ProofPoseidon2 ProofPoseidon2Lin ProofPoseidon2Bij ProofMatInverse ProofEquivRC ProofPoseidon ProofPoseidonOpt ProofPoseidonFin ProofGmimc ProofNeptuneParams ProofNeptune ProofNeptuneBij.
From Verif Require Import ModelFields ModelInstances SpecInstances Limbs Fp Transfer TransferRef Elim ProofInstances ProofKats.
Local Open Scope nat_scope.

Lemma nodup_r {A} (l l' : list A) : NoDup (l ++ l') -> NoDup l'.
Proof. induction l as [|a l IH]; [auto|]. intros H. inversion H; auto. Qed.
Lemma nodup_l {A} (l l' : list A) : NoDup (l ++ l') -> NoDup l.
Proof.
  induction l as [|a l IH]; intros H; [constructor|]. inversion H as [|? ? N H']; subst. constructor; [|auto].
  intros C. apply N, in_or_app. now left.
Qed.

Section Abs.
  Context {F : Type} (t : nat).
  Definition keeps (f : list F -> list F) : Prop := forall x, length x = t -> length (f x) = t.
  Definition Eq (f g : list F -> list F) : Prop := forall x, length x = t -> f x = g x.
  Definition Df (f g : list F -> list F) : Prop := forall x, length x = t -> f x <> g x.
  Lemma lb_keeps f : lbij t f -> keeps f.
  Proof. intros [H _]. exact H. Qed.
  Lemma df_after h h' f g : linj t h -> Eq h h' -> keeps f -> keeps g -> Df f g -> Df (fun x => h (f x)) (fun x => h' (g x)).
  Proof. intros Hi He Kf Kg H x Hx C. rewrite <- He in C by auto. apply (H x Hx). apply Hi; auto. Qed.
  Lemma df_before h h' f g : keeps h -> Eq h h' -> Df f g -> Df (fun x => f (h x)) (fun x => g (h' x)).
  Proof. intros K He H x Hx. rewrite <- He by exact Hx. apply H. auto. Qed.
  Lemma eq_comp h h' f g : keeps f -> Eq h h' -> Eq f g -> Eq (fun x => h (f x)) (fun x => h' (g x)).
  Proof. intros K He H x Hx. rewrite <- (H x Hx). apply He. auto. Qed.
  Lemma keeps_fold {B} (f : list F -> B -> list F) l : (forall b, In b l -> keeps (fun s => f s b)) -> keeps (fun s => fold_left f l s).
  Proof.
    intros H x Hx. revert x Hx. induction l as [|b l IH]; intros x Hx; [exact Hx|]. simpl. apply IH; [intros; apply H; now right|].
    apply (H b); [now left|exact Hx].
  Qed.
  Lemma eq_fold {B} (f g : list F -> B -> list F) l : (forall b, In b l -> keeps (fun s => f s b)) ->
    (forall b, In b l -> Eq (fun s => f s b) (fun s => g s b)) -> Eq (fun s => fold_left f l s) (fun s => fold_left g l s).
  Proof.
    intros K H x Hx. revert x Hx. induction l as [|b l IH]; intros x Hx; [reflexivity|]. simpl.
    rewrite <- (H b (or_introl eq_refl) x Hx). apply IH; [intros; apply K; now right|intros; apply H; now right|].
    apply (K b); [now left|exact Hx].
  Qed.
  Lemma df_fold {B} (f g : list F -> B -> list F) l r : NoDup l -> In r l ->
    (forall b, In b l -> lbij t (fun s => f s b)) -> keeps (fun s => g s r) ->
    (forall b, In b l -> b <> r -> Eq (fun s => f s b) (fun s => g s b)) -> Df (fun s => f s r) (fun s => g s r) ->
    Df (fun s => fold_left f l s) (fun s => fold_left g l s).
  Proof.
    intros ND Hr Hb Kg He Hd. induction l as [|b l IH]; [contradiction|]. inversion ND as [|? ? Nb ND']; subst.
    assert (Kf : forall b', In b' (b :: l) -> keeps (fun s => f s b')) by (intros b' Hb'; apply lb_keeps, Hb; exact Hb').
    destruct Hr as [->|Hr].
    - intros x Hx. simpl. apply (df_after (fun s => fold_left f l s) (fun s => fold_left g l s) (fun s => f s r) (fun s => g s r)); auto.
      + apply lbij_inj. apply lbij_fold. intros; apply Hb; now right.
      + apply eq_fold; [intros; apply Kf; now right|]. intros b' Hb'. apply He; [now right|]. intros ->. contradiction.
      + apply Kf. now left.
    - intros x Hx. simpl. assert (N : b <> r) by (intros ->; contradiction).
      rewrite <- (He b (or_introl eq_refl) N x Hx).
      apply IH; auto; [intros; apply Hb; now right|intros; apply He; auto; now right|]. apply (Kf b); [now left|exact Hx].
  Qed.
  Lemma linj_keeps_fold {B} (f : list F -> B -> list F) l : (forall b, In b l -> lbij t (fun s => f s b)) -> linj t (fun s => fold_left f l s).
  Proof. intros H. apply lbij_inj, lbij_fold, H. Qed.

  (** three segments of rounds *)
  Lemma df_three {B} (f g f2 g2 : list F -> B -> list F) l1 l2 l3 r :
    NoDup (l1 ++ l2 ++ l3) -> In r (l1 ++ l2 ++ l3) ->
    (forall b, In b l1 \/ In b l3 -> lbij t (fun s => f s b)) -> (forall b, In b l2 -> lbij t (fun s => f2 s b)) ->
    (forall b, In b l1 \/ In b l3 -> keeps (fun s => g s b)) -> (forall b, In b l2 -> keeps (fun s => g2 s b)) ->
    (forall b, In b l1 \/ In b l3 -> b <> r -> Eq (fun s => f s b) (fun s => g s b)) ->
    (forall b, In b l2 -> b <> r -> Eq (fun s => f2 s b) (fun s => g2 s b)) ->
    (In r l1 \/ In r l3 -> Df (fun s => f s r) (fun s => g s r)) -> (In r l2 -> Df (fun s => f2 s r) (fun s => g2 s r)) ->
    Df (fun s => fold_left f l3 (fold_left f2 l2 (fold_left f l1 s))) (fun s => fold_left g l3 (fold_left g2 l2 (fold_left g l1 s))).
  Proof.
    intros ND Hr B1 B2 K1 K2 E1 E2 D1 D2.
    assert (F1 : keeps (fun s => fold_left f l1 s)) by (apply keeps_fold; intros; apply lb_keeps, B1; auto).
    assert (F2 : keeps (fun s => fold_left f2 l2 s)) by (apply keeps_fold; intros; apply lb_keeps, B2; auto).
    assert (G1 : keeps (fun s => fold_left g l1 s)) by (apply keeps_fold; intros; apply K1; auto).
    assert (G2 : keeps (fun s => fold_left g2 l2 s)) by (apply keeps_fold; intros; apply K2; auto).
    assert (X : forall l l' : list B, NoDup (l ++ l') -> forall b, In b l -> In b l' -> False).
    { intros l l' H b Hb Hb'. induction l as [|a l IH]; [contradiction|]. inversion H as [|? ? Na H']; subst. destruct Hb as [->|Hb]; [apply Na, in_or_app; now right|now apply IH]. }
    pose proof (X _ _ ND) as X1. pose proof ND as ND1. apply nodup_r in ND1. pose proof (X _ _ ND1) as X2.
    assert (NDl1 : NoDup l1) by (apply nodup_l in ND; exact ND).
    assert (NDl2 : NoDup l2) by (apply nodup_l in ND1; exact ND1).
    assert (NDl3 : NoDup l3) by (apply nodup_r in ND1; exact ND1).
    apply in_app_or in Hr. destruct Hr as [Hr|Hr]; [|apply in_app_or in Hr; destruct Hr as [Hr|Hr]].
    - apply (df_after (fun s => fold_left f l3 s) (fun s => fold_left g l3 s) (fun s => fold_left f2 l2 (fold_left f l1 s)) (fun s => fold_left g2 l2 (fold_left g l1 s))).
      + apply linj_keeps_fold. intros; apply B1; auto.
      + apply eq_fold; [intros; apply lb_keeps, B1; auto|]. intros b Hb. apply E1; auto. intros ->. apply (X1 r Hr). apply in_or_app; auto.
      + intros x Hx. apply F2, F1, Hx.
      + intros x Hx. apply G2, G1, Hx.
      + apply (df_after (fun s => fold_left f2 l2 s) (fun s => fold_left g2 l2 s) (fun s => fold_left f l1 s) (fun s => fold_left g l1 s)); auto.
        * apply linj_keeps_fold. intros; apply B2; auto.
        * apply eq_fold; [intros; apply lb_keeps, B2; auto|]. intros b Hb. apply E2; auto. intros ->. apply (X1 r Hr). apply in_or_app; auto.
        * apply (df_fold f g l1 r); auto.
    - apply (df_after (fun s => fold_left f l3 s) (fun s => fold_left g l3 s) (fun s => fold_left f2 l2 (fold_left f l1 s)) (fun s => fold_left g2 l2 (fold_left g l1 s))).
      + apply linj_keeps_fold. intros; apply B1; auto.
      + apply eq_fold; [intros; apply lb_keeps, B1; auto|]. intros b Hb. apply E1; auto. intros ->. apply (X2 r Hr Hb).
      + intros x Hx. apply F2, F1, Hx.
      + intros x Hx. apply G2, G1, Hx.
      + apply (df_before (fun s => fold_left f l1 s) (fun s => fold_left g l1 s) (fun s => fold_left f2 l2 s) (fun s => fold_left g2 l2 s)); auto.
        * apply eq_fold; [intros; apply lb_keeps, B1; auto|]. intros b Hb. apply E1; auto. intros ->. apply (X1 r Hb). apply in_or_app; auto.
        * apply (df_fold f2 g2 l2 r); auto.
    - apply (df_before (fun s => fold_left f2 l2 (fold_left f l1 s)) (fun s => fold_left g2 l2 (fold_left g l1 s)) (fun s => fold_left f l3 s) (fun s => fold_left g l3 s)); auto.
      + intros x Hx. apply F2, F1, Hx.
      + apply (eq_comp (fun s => fold_left f2 l2 s) (fun s => fold_left g2 l2 s) (fun s => fold_left f l1 s) (fun s => fold_left g l1 s)); auto.
        * apply eq_fold; [intros; apply lb_keeps, B2; auto|]. intros b Hb. apply E2; auto. intros ->. apply (X2 r Hb Hr).
        * apply eq_fold; [intros; apply lb_keeps, B1; auto|]. intros b Hb. apply E1; auto. intros ->. apply (X1 r Hb). apply in_or_app; auto.
      + apply (df_fold f g l3 r); auto.
  Qed.
End Abs.

Lemma seq3 h rp : seq 0 h ++ seq h rp ++ seq (h + rp) h = seq 0 (h + rp + h).
Proof.
  rewrite app_assoc. change (seq h rp) with (seq (0 + h) rp). rewrite <- seq_app.
  change (seq (h + rp) h) with (seq (0 + (h + rp)) h). rewrite <- seq_app. reflexivity.
Qed.

Section Const.
  Context {F : Type} {Fo : FOps F} {p : Z} (HP : is_prime_field Fo p).
  Let HF : is_field Fo := prime_field_is_field HP.
  Add Ring FringC : (ff_ring _ HF).

  Lemma add_ne (a b c : F) : b <> c -> fadd a b <> fadd a c.
  Proof. intros N C. apply N. transitivity (fsub (fadd a b) a); [ring|]. rewrite C. ring. Qed.
  Lemma nth_ne (l m : list F) i : nth i l f0 <> nth i m f0 -> l <> m.
  Proof. intros N ->. now apply N. Qed.

  (** ** Poseidon2 *)
  Lemma p2_full_df t d c c' i : nonsingular t (ext_matrix t) -> d <> 0 -> Z.gcd (Z.of_nat d) (p - 1) = 1%Z -> i < t -> nth i c f0 <> nth i c' f0 ->
    Df t (@p2_ref_full F Fo t d c) (p2_ref_full t d c').
  Proof.
    intros HE Hd Hg Hi N x Hx C. unfold p2_ref_full in C.
    apply (lbij_inj t _ (lbij_mat HF t _ HE)) in C; try (rewrite map_length, seq_length; reflexivity).
    apply (f_equal (fun l => nth i l f0)) in C. rewrite !nth_map_seq in C by exact Hi.
    apply (proj2 (pow_injective_iff HP d Hd) Hg) in C. exact (add_ne _ _ _ N C).
  Qed.
  Lemma p2_full_eq t d c c' : (forall i, i < t -> nth i c f0 = nth i c' f0) -> Eq t (@p2_ref_full F Fo t d c) (p2_ref_full t d c').
  Proof. intros H x Hx. unfold p2_ref_full. f_equal. apply map_seq_ext. intros i Hi. now rewrite H. Qed.
  Lemma p2_partial_df t d diag c c' : 1 <= t -> nonsingular t (int_matrix t diag) -> d <> 0 -> Z.gcd (Z.of_nat d) (p - 1) = 1%Z -> nth 0 c f0 <> nth 0 c' f0 ->
    Df t (@p2_ref_partial F Fo t d diag c) (p2_ref_partial t d diag c').
  Proof.
    intros Ht HE Hd Hg N x Hx C. unfold p2_ref_partial in C.
    apply (lbij_inj t _ (lbij_mat HF t _ HE)) in C; try (rewrite map_length, seq_length; reflexivity).
    apply (f_equal (fun l => nth 0 l f0)) in C. rewrite !nth_map_seq in C by lia. cbn [Nat.eqb] in C.
    apply (proj2 (pow_injective_iff HP d Hd) Hg) in C. exact (add_ne _ _ _ N C).
  Qed.
  Lemma p2_partial_eq t d diag c c' : nth 0 c f0 = nth 0 c' f0 -> Eq t (@p2_ref_partial F Fo t d diag c) (p2_ref_partial t d diag c').
  Proof. intros H x Hx. unfold p2_ref_partial. now rewrite H. Qed.

  Lemma p2_full_keeps t d c : keeps t (@p2_ref_full F Fo t d c).
  Proof. intros x Hx. apply mat_apply_length. Qed.
  Lemma p2_partial_keeps t d diag c : keeps t (@p2_ref_partial F Fo t d diag c).
  Proof. intros x Hx. apply mat_apply_length. Qed.
  Lemma in_three r h rp : r < h \/ h + rp <= r < h + rp + h <-> In r (seq 0 h) \/ In r (seq (h + rp) h).
  Proof. rewrite !in_seq. lia. Qed.

  Theorem p2_constants dbg t d rf rp diag mi mi' rc rc' P P' r :
    p2_new dbg t d rf rp diag mi rc = Ok P -> p2_new dbg t d rf rp diag mi' rc' = Ok P' ->
    (N.of_nat rf + N.of_nat rp < usize_mod)%N -> p2_width t -> sbox_degree d ->
    p2_data_ok t rf rp diag rc -> p2_data_ok t rf rp diag rc' ->
    bijective_on t (p2_permutation dbg P) -> only_row (p2_reads t rf rp) r rc rc' ->
    differ_everywhere t (p2_permutation dbg P) (p2_permutation dbg P').
  Proof.
    intros H H' Hov Hw Hd Hok Hok' HB [[i [Hi N]] Heq].
    apply (p2_permutation_bijective_iff HP dbg t d rf rp diag mi rc P H Hov Hw Hd Hok) in HB. destruct HB as [Hg [Hbad Hint]].
    assert (Hd0 : d <> 0) by (unfold sbox_degree in Hd; simpl in Hd; intros ->; intuition discriminate).
    pose proof (p2_width_pos t Hw) as Ht.
    assert (HE : nonsingular t (ext_matrix t)) by (apply (ext_nonsingular HP); assumption).
    assert (Hr : r < rf / 2 + rp + rf / 2) by (unfold p2_reads in Hi; lia).
    assert (Hh : rf / 2 + rf / 2 <= rf) by (pose proof (Nat.div_mod rf 2 ltac:(lia)); lia).
    assert (Hg1 : Z.gcd (Z.of_nat d) (p - 1) = 1%Z) by (destruct Hg as [Hg|Hg]; [lia|exact Hg]). clear Hg.
    assert (D : Df t (@p2_ref F Fo t d rf rp diag rc) (p2_ref t d rf rp diag rc')).
    { unfold p2_ref.
      apply (df_before t (mat_apply t t (ext_matrix t)) (mat_apply t t (ext_matrix t))
        (fun s => fold_left (fun s r => p2_ref_full t d (nth r rc []) s) (seq (rf / 2 + rp) (rf / 2))
          (fold_left (fun s r => p2_ref_partial t d diag (nth r rc []) s) (seq (rf / 2) rp) (fold_left (fun s r => p2_ref_full t d (nth r rc []) s) (seq 0 (rf / 2)) s)))
        (fun s => fold_left (fun s r => p2_ref_full t d (nth r rc' []) s) (seq (rf / 2 + rp) (rf / 2))
          (fold_left (fun s r => p2_ref_partial t d diag (nth r rc' []) s) (seq (rf / 2) rp) (fold_left (fun s r => p2_ref_full t d (nth r rc' []) s) (seq 0 (rf / 2)) s)))).
      - intros x Hx. apply mat_apply_length.
      - intros x Hx. reflexivity.
      - apply (df_three t _ _ _ _ _ _ _ r).
        + rewrite seq3. apply seq_NoDup.
        + rewrite seq3. apply in_seq. lia.
        + intros b _. apply (lbij_comp t (mat_apply t t (ext_matrix t)) (full_sb t d (nth b rc []))); [apply (lbij_mat HF); exact HE|apply (full_sb_lbij HP); assumption].
        + intros b Hb. apply in_seq in Hb. apply (lbij_comp t (mat_apply t t (int_matrix t diag)) (part_sb t d (nth b rc []))); [|apply (part_sb_lbij HP); assumption]. apply (lbij_mat HF). destruct Hint as [->|Hint]; [lia|]. apply (invertible_nonsingular HF). exact Hint.
        + intros. apply p2_full_keeps.
        + intros. apply p2_partial_keeps.
        + intros b Hb Nb. apply p2_full_eq. intros j Hj. apply Heq; [exact Nb|]. left. split; [now apply in_three|exact Hj].
        + intros b Hb Nb. apply p2_partial_eq. apply in_seq in Hb. apply Heq; [exact Nb|]. right. lia.
        + intros Hb. apply in_three in Hb. apply (p2_full_df t d _ _ i HE Hd0 Hg1); [|exact N]. destruct Hi as [[_ Hi]|[Hi _]]; [exact Hi|lia].
        + intros Hb. apply in_seq in Hb. destruct Hi as [[Hi _]|[_ ->]]; [lia|]. apply p2_partial_df; try assumption; [lia|].
          destruct Hint as [->|Hint]; [lia|]. apply (invertible_nonsingular HF). exact Hint. }
    intros x Hx. exists (p2_ref t d rf rp diag rc x), (p2_ref t d rf rp diag rc' x).
    split; [apply (p2_permutation_ref HF dbg t d rf rp diag mi rc P x); assumption|].
    split; [apply (p2_permutation_ref HF dbg t d rf rp diag mi' rc' P' x); assumption|]. exact (D x Hx).
  Qed.

  (** ** Poseidon *)
  Theorem ps_constants dbg t d rf rp (mds rc rc' : list (list F)) P P' r :
    ps_new dbg t d rf rp mds rc = Ok P -> ps_new dbg t d rf rp mds rc' = Ok P' ->
    (N.of_nat rf + N.of_nat rp < usize_mod)%N -> dims t t mds -> ps_rows_ok t rf rp rc -> ps_rows_ok t rf rp rc' ->
    Z.gcd (Z.of_nat d) (p - 1) = 1%Z -> only_row (all_reads t rf rp) r rc rc' ->
    differ_everywhere t (ps_permutation dbg P) (ps_permutation dbg P') /\
    differ_everywhere t (ps_permutation_not_opt dbg P) (ps_permutation_not_opt dbg P').
  Proof.
    intros H H' Hov Hdim HR HR' Hg [[i [Hi N]] Heq]. pose proof (ps_new_wide _ _ _ _ _ _ _ _ H) as [Ht Hp].
    destruct (ps_new_ok _ _ _ _ _ _ _ _ H Hov) as [Hs [_ [He [m_i [v [w [opt [_ [EC _]]]]]]]]].
    destruct (ps_erc_ok HF _ _ _ _ _ _ _ Hdim Ht (half_ov _ _ Hov) EC) as [_ [HL _]].
    assert (HM : nonsingular t (entry mds)) by (apply HL; lia).
    assert (Hd0 : d <> 0) by (unfold sbox_degree in Hs; simpl in Hs; intros ->; intuition discriminate).
    pose proof (rf_even rf He) as Hh. destruct Hi as [Hr Hi].
    assert (Inj : forall a b : F, fpow a d = fpow b d -> a = b) by (apply (pow_injective_iff HP d Hd0); exact Hg).
    assert (D : Df t (ps_ref t d rf rp (entry mds) rc) (ps_ref t d rf rp (entry mds) rc')).
    { unfold ps_ref. apply (df_three t (fun s r => ps_ref_full t d (entry mds) (nth r rc []) s) (fun s r => ps_ref_full t d (entry mds) (nth r rc' []) s)
        (fun s r => ps_ref_partial t d (entry mds) (nth r rc []) s) (fun s r => ps_ref_partial t d (entry mds) (nth r rc' []) s) _ _ _ r).
      - rewrite seq3. apply seq_NoDup.
      - rewrite seq3. apply in_seq. lia.
      - intros b _. apply (lbij_comp t (mat_apply t t (entry mds)) (full_sb t d (nth b rc []))); [apply (lbij_mat HF); exact HM|apply (full_sb_lbij HP); assumption].
      - intros b _. apply (lbij_comp t (mat_apply t t (entry mds)) (ps_part_sb t d (nth b rc []))); [apply (lbij_mat HF); exact HM|apply (ps_part_sb_lbij HP); assumption].
      - intros b _ x Hx. apply mat_apply_length.
      - intros b _ x Hx. apply mat_apply_length.
      - intros b Hb Nb x Hx. unfold ps_ref_full. f_equal. apply map_seq_ext. intros j Hj. rewrite (Heq b j); [reflexivity|exact Nb|].
        split; [|exact Hj]. apply in_three in Hb. lia.
      - intros b Hb Nb x Hx. unfold ps_ref_partial. f_equal. apply map_seq_ext. intros j Hj. rewrite (Heq b j); [reflexivity|exact Nb|].
        split; [|exact Hj]. apply in_seq in Hb. lia.
      - intros _ x Hx C. unfold ps_ref_full in C.
        apply (lbij_inj t _ (lbij_mat HF t _ HM)) in C; try (rewrite map_length, seq_length; reflexivity).
        apply (f_equal (fun l => nth i l f0)) in C. rewrite !nth_map_seq in C by exact Hi. apply Inj in C. exact (add_ne _ _ _ N C).
      - intros _ x Hx C. unfold ps_ref_partial in C.
        apply (lbij_inj t _ (lbij_mat HF t _ HM)) in C; try (rewrite map_length, seq_length; reflexivity).
        apply (f_equal (fun l => nth i l f0)) in C. rewrite !nth_map_seq in C by exact Hi. cbv zeta in C.
        destruct (i =? 0); [apply Inj in C|]; exact (add_ne _ _ _ N C). }
    split; intros x Hx; exists (ps_ref t d rf rp (entry mds) rc x), (ps_ref t d rf rp (entry mds) rc' x);
      destruct (proj1 (ps_permutation_ref HF dbg t d rf rp mds rc P x H Hov Hdim HR) Hx) as [A B];
      destruct (proj1 (ps_permutation_ref HF dbg t d rf rp mds rc' P' x H' Hov Hdim HR') Hx) as [A' B'];
      (split; [assumption|split; [assumption|exact (D x Hx)]]).
  Qed.

  (** ** Neptune *)
  Theorem np_constants dbg fuel fuel' rng rng' t d rf rp P P' r :
    np_new dbg fuel rng t d rf rp = Ok P -> np_new dbg fuel' rng' t d rf rp = Ok P' ->
    (N.of_nat rf + N.of_nat rp < usize_mod)%N -> 2 <= t ->
    np_m_e P' = np_m_e P -> np_mu P' = np_mu P -> np_abc P' = np_abc P ->
    bijective_on t (np_permutation dbg P) -> only_row (all_reads t rf rp) r (np_rc P) (np_rc P') ->
    differ_everywhere t (np_permutation dbg P) (np_permutation dbg P').
  Proof.
    intros H H' Hov Ht EM EU EA HB [[i [Hi N]] Heq]. destruct Hi as [Hr Hi].
    pose proof HB as HB'. apply (np_bijective_iff HP dbg fuel rng t d rf rp P H Hov Ht) in HB. destruct HB as [HE [H5 HI]].
    destruct (np_new_ok HF _ _ _ _ _ _ _ _ H Hov) as [HA HM].
    pose proof HM as (_ & _ & _ & _ & _ & _ & _ & _ & _ & _ & [ka Ea] & _). pose proof HA as [Hs [Hrf Hev]].
    assert (Hd0 : d <> 0) by (unfold sbox_degree in Hs; simpl in Hs; intros ->; intuition discriminate).
    pose proof (rf_even rf Hrf) as Hh. apply (invertible_nonsingular HF) in HE.
    set (MI := np_int_matrix (fun i => fadd (nth i (np_mu P) f0) f1)) in *. set (ME := entry (np_m_e P)) in *.
    assert (HI' : rp = 0 \/ nonsingular t MI /\ Z.gcd (Z.of_nat d) (p - 1) = 1%Z).
    { destruct HI as [HI|[HI HI2]]; [now left|right; split; [apply (invertible_nonsingular HF); exact HI|exact HI2]]. }
    assert (D : Df t (np_ref t d rf rp (np_abc P) ME MI (np_rc P)) (np_ref t d rf rp (np_abc P) ME MI (np_rc P'))).
    { unfold np_ref. cbv zeta. rewrite Ea.
      apply (df_before t (mat_apply t t ME) (mat_apply t t ME)
        (fun s => fold_left (fun s r => np_ref_ext t (f1, f1, rng ka) ME (nth r (np_rc P) []) s) (seq (rf / 2 + rp) (rf / 2))
          (fold_left (fun s r => np_ref_int t d MI (nth r (np_rc P) []) s) (seq (rf / 2) rp) (fold_left (fun s r => np_ref_ext t (f1, f1, rng ka) ME (nth r (np_rc P) []) s) (seq 0 (rf / 2)) s)))
        (fun s => fold_left (fun s r => np_ref_ext t (f1, f1, rng ka) ME (nth r (np_rc P') []) s) (seq (rf / 2 + rp) (rf / 2))
          (fold_left (fun s r => np_ref_int t d MI (nth r (np_rc P') []) s) (seq (rf / 2) rp) (fold_left (fun s r => np_ref_ext t (f1, f1, rng ka) ME (nth r (np_rc P') []) s) (seq 0 (rf / 2)) s)))).
      - intros x Hx. apply mat_apply_length.
      - intros x Hx. reflexivity.
      - apply (df_three t _ _ _ _ _ _ _ r).
        + rewrite seq3. apply seq_NoDup.
        + rewrite seq3. apply in_seq. lia.
        + intros b Hb. apply (lbij_comp t (addc t (nth b (np_rc P) [])) (fun x => mat_apply t t ME (np_ref_sbox t (f1, f1, rng ka) x))); [apply (addc_lbij HP)|].
          apply (lbij_comp t (mat_apply t t ME) (np_ref_sbox t (f1, f1, rng ka))); [apply (lbij_mat HF); exact HE|]. apply (sb_lbij HP); [exact Hev|].
          apply in_three in Hb. destruct H5 as [->|H5]; [cbn in Hb; lia|exact H5].
        + intros b Hb. apply in_seq in Hb. destruct HI' as [->|[HI1 HI2]]; [lia|].
          apply (lbij_comp t (addc t (nth b (np_rc P) [])) (fun x => mat_apply t t MI (isb t d x))); [apply (addc_lbij HP)|].
          apply (lbij_comp t (mat_apply t t MI) (isb t d)); [apply (lbij_mat HF); exact HI1|]. apply (isb_lbij HP); assumption.
        + intros b _ x Hx. unfold np_ref_ext. rewrite map_length. apply seq_length.
        + intros b _ x Hx. unfold np_ref_int. rewrite map_length. apply seq_length.
        + intros b Hb Nb x Hx. unfold np_ref_ext. apply map_seq_ext. intros j Hj. f_equal. apply Heq; [exact Nb|].
          split; [|exact Hj]. apply in_three in Hb. lia.
        + intros b Hb Nb x Hx. unfold np_ref_int. apply map_seq_ext. intros j Hj. f_equal. apply Heq; [exact Nb|].
          split; [|exact Hj]. apply in_seq in Hb. lia.
        + intros _ x Hx C. unfold np_ref_ext in C. apply (f_equal (fun l => nth i l f0)) in C. rewrite !nth_map_seq in C by exact Hi. exact (add_ne _ _ _ N C).
        + intros _ x Hx C. unfold np_ref_int in C. apply (f_equal (fun l => nth i l f0)) in C. rewrite !nth_map_seq in C by exact Hi. exact (add_ne _ _ _ N C). }
    intros x Hx. do 2 eexists. split; [apply (np_permutation_reference HP dbg fuel rng t d rf rp P x H Hov); [exact Hx|lia]|].
    split; [apply (np_permutation_reference HP dbg fuel' rng' t d rf rp P' x H' Hov); [exact Hx|lia]|]. rewrite EM, EU, EA. exact (D x Hx).
  Qed.

  (** ** Poseidon: a change of two rows that nobody sees *)
  Definition ps_step t d rf rp (M : mat) (rc : list (list F)) (s : list F) (r : nat) : list F :=
    if (rf / 2 <=? r) && (r <? rf / 2 + rp) then ps_ref_partial t d M (nth r rc []) s else ps_ref_full t d M (nth r rc []) s.
  Lemma fold_ext_in {A B} (f g : A -> B -> A) l : (forall b, In b l -> forall a, f a b = g a b) -> forall a, fold_left f l a = fold_left g l a.
  Proof. induction l as [|b l IH]; intros H a; [reflexivity|]. simpl. rewrite H by now left. apply IH. intros; apply H; now right. Qed.
  Lemma ps_ref_steps t d rf rp M rc x : ps_ref t d rf rp M rc x = fold_left (ps_step t d rf rp M rc) (seq 0 (rf / 2 + rp + rf / 2)) x.
  Proof.
    unfold ps_ref. rewrite <- seq3, !fold_left_app.
    set (u := fold_left _ (seq 0 (rf / 2)) x). replace (fold_left (ps_step t d rf rp M rc) (seq 0 (rf / 2)) x) with u.
    - set (v := fold_left _ (seq (rf / 2) rp) u). replace (fold_left (ps_step t d rf rp M rc) (seq (rf / 2) rp) u) with v.
      + apply fold_ext_in. intros r Hr a. apply in_seq in Hr. unfold ps_step. rewrite (proj2 (Nat.ltb_ge _ _)) by lia. rewrite andb_false_r. reflexivity.
      + apply fold_ext_in. intros r Hr a. apply in_seq in Hr. unfold ps_step.
        rewrite (proj2 (Nat.leb_le _ _)), (proj2 (Nat.ltb_lt _ _)) by lia. reflexivity.
    - apply fold_ext_in. intros r Hr a. apply in_seq in Hr. unfold ps_step. rewrite (proj2 (Nat.leb_gt _ _)) by lia. reflexivity.
  Qed.
  Lemma ps_step_ext t d rf rp M rc rc' r s s' : (forall i, i < t -> fadd (nth i s f0) (nth i (nth r rc []) f0) = fadd (nth i s' f0) (nth i (nth r rc' []) f0)) ->
    ps_step t d rf rp M rc s r = ps_step t d rf rp M rc' s' r.
  Proof.
    intros H. unfold ps_step, ps_ref_partial, ps_ref_full. destruct (_ && _); f_equal; apply map_seq_ext; intros i Hi; cbv zeta; rewrite H by exact Hi; reflexivity.
  Qed.
  Theorem ps_two_rows dbg t d rf rp (mds rc rc' : list (list F)) P P' r (delta : nat -> F) :
    ps_new dbg t d rf rp mds rc = Ok P -> ps_new dbg t d rf rp mds rc' = Ok P' ->
    (N.of_nat rf + N.of_nat rp < usize_mod)%N -> dims t t mds -> ps_rows_ok t rf rp rc -> ps_rows_ok t rf rp rc' ->
    rf / 2 <= r < rf / 2 + rp -> S r < rf + rp -> delta 0 = f0 ->
    (forall i, i < t -> nth i (nth r rc' []) f0 = fadd (nth i (nth r rc []) f0) (delta i)) ->
    (forall i, i < t -> nth i (nth (S r) rc' []) f0 = fsub (nth i (nth (S r) rc []) f0) (sumn t (fun j => fmul (entry mds i j) (delta j)))) ->
    (forall s i, s <> r -> s <> S r -> s < rf + rp -> i < t -> nth i (nth s rc []) f0 = nth i (nth s rc' []) f0) ->
    agree_everywhere t (ps_permutation dbg P) (ps_permutation dbg P') /\
    agree_everywhere t (ps_permutation_not_opt dbg P) (ps_permutation_not_opt dbg P').
  Proof.
    intros H H' Hov Hdim HR HR' Hr Hs D0 Er Es Eo.
    destruct (ps_new_ok _ _ _ _ _ _ _ _ H Hov) as [_ [_ [He _]]]. pose proof (rf_even rf He) as Hh.
    assert (E : forall x, length x = t -> ps_ref t d rf rp (entry mds) rc' x = ps_ref t d rf rp (entry mds) rc x).
    { intros x Hx. rewrite !ps_ref_steps. replace (rf / 2 + rp + rf / 2) with (r + (2 + (rf / 2 + rp + rf / 2 - (r + 2)))) by lia.
      rewrite !seq_app, !fold_left_app. cbn [seq fold_left Nat.add].
      assert (Same : forall s k, k <> r -> k <> S r -> k < rf + rp -> ps_step t d rf rp (entry mds) rc' s k = ps_step t d rf rp (entry mds) rc s k).
      { intros s k N1 N2 Hk. apply ps_step_ext. intros i Hi. rewrite (Eo k i) by assumption. reflexivity. }
      rewrite (fold_ext_in (ps_step t d rf rp (entry mds) rc') (ps_step t d rf rp (entry mds) rc) (seq 0 r))
        by (intros b Hb a; apply in_seq in Hb; apply Same; lia).
      rewrite (fold_ext_in (ps_step t d rf rp (entry mds) rc') (ps_step t d rf rp (entry mds) rc) (seq _ (rf / 2 + rp + rf / 2 - (r + 2))))
        by (intros b Hb a; apply in_seq in Hb; apply Same; lia).
      f_equal. set (s := fold_left _ _ x). apply ps_step_ext. intros i Hi. rewrite Es by exact Hi.
      unfold ps_step. rewrite (proj2 (Nat.leb_le _ _)), (proj2 (Nat.ltb_lt _ _)) by lia. cbn [andb].
      unfold ps_ref_partial. rewrite !mat_apply_nth by exact Hi.
      set (y' := map _ (seq 0 t)). set (y := map _ (seq 0 t)).
      assert (Ey : sumn t (fun j => fmul (entry mds i j) (nth j y' f0)) =
                   fadd (sumn t (fun j => fmul (entry mds i j) (nth j y f0))) (sumn t (fun j => fmul (entry mds i j) (delta j)))).
      { rewrite <- (sumn_add HF). apply sumn_ext. intros j Hj. unfold y, y'. rewrite !nth_map_seq by exact Hj. cbv zeta. rewrite Er by exact Hj.
        destruct (j =? 0) eqn:J; [apply Nat.eqb_eq in J; subst j; rewrite D0|]; [|ring].
        replace (fadd (nth 0 s f0) (fadd (nth 0 (nth r rc []) f0) f0)) with (fadd (nth 0 s f0) (nth 0 (nth r rc []) f0)) by ring. ring. }
      rewrite Ey. ring. }
    split; intros x Hx; exists (ps_ref t d rf rp (entry mds) rc x);
      destruct (proj1 (ps_permutation_ref HF dbg t d rf rp mds rc P x H Hov Hdim HR) Hx) as [A B];
      destruct (proj1 (ps_permutation_ref HF dbg t d rf rp mds rc' P' x H' Hov Hdim HR') Hx) as [A' B']; rewrite E in A', B' by exact Hx;
      split; assumption.
  Qed.

  (** ** GMiMC *)
  Definition gm_stp t d rounds (rc : list F) (s : list F) (r : nat) : list F :=
    if r =? rounds - 1 then gm_ref_round t d (nth r rc f0) s else gm_ref_rotate t (gm_ref_round t d (nth r rc f0) s).
  Lemma gm_ref_steps t d rounds rc x : 1 <= rounds -> gm_ref t d rounds rc x = fold_left (gm_stp t d rounds rc) (seq 0 rounds) x.
  Proof.
    intros H. unfold gm_ref. replace rounds with (rounds - 1 + 1) at 4 by lia. rewrite seq_app, fold_left_app. cbn [seq fold_left Nat.add].
    unfold gm_stp at 1. rewrite Nat.eqb_refl. f_equal. apply fold_ext_in. intros r Hr a. apply in_seq in Hr.
    unfold gm_stp. rewrite (proj2 (Nat.eqb_neq _ _)) by lia. reflexivity.
  Qed.
  Lemma gm_stp_lbij t d rounds rc r : 1 <= t -> lbij t (fun s => gm_stp t d rounds rc s r).
  Proof.
    intros Ht. unfold gm_stp. destruct (r =? rounds - 1); [apply (gm_round_lbij HF); exact Ht|].
    apply (lbij_comp t (@gm_ref_rotate F Fo t) (gm_ref_round t d (nth r rc f0))); [apply gm_rotate_lbij|apply (gm_round_lbij HF)]; exact Ht.
  Qed.
  Theorem gm_constants dbg rng rng' t d rounds (P P' : GmimcParams F) r :
    gm_new rng t d rounds = Ok P -> gm_new rng' t d rounds = Ok P' -> r < rounds -> rng r <> rng' r ->
    (forall s, s <> r -> s < rounds -> rng s = rng' s) ->
    (2 <= t -> (differ_everywhere t (gm_permutation dbg P) (gm_permutation dbg P') <-> Z.gcd (Z.of_nat d) (p - 1) = 1%Z) /\
       (differ_everywhere t (gm_permutation_not_opt dbg P) (gm_permutation_not_opt dbg P') <-> Z.gcd (Z.of_nat d) (p - 1) = 1%Z)) /\
    (t = 1 -> agree_everywhere t (gm_permutation dbg P) (gm_permutation dbg P') /\
       agree_everywhere t (gm_permutation_not_opt dbg P) (gm_permutation_not_opt dbg P')).
  Proof.
    intros H H' Hr N Eo. set (rc := map rng (seq 0 rounds)). set (rc' := map rng' (seq 0 rounds)).
    assert (Nr : nth r rc f0 <> nth r rc' f0) by (unfold rc, rc'; rewrite !nth_map_seq by exact Hr; exact N).
    assert (No : forall s, s <> r -> s < rounds -> nth s rc f0 = nth s rc' f0) by (intros s H1 H2; unfold rc, rc'; rewrite !nth_map_seq by exact H2; auto).
    destruct (gm_new_ok _ _ _ _ _ H) as [Hd _]. assert (Hd0 : d <> 0) by (unfold sbox_degree in Hd; simpl in Hd; intros ->; intuition discriminate).
    assert (Ref : forall x, length x = t -> 1 <= t -> gm_permutation dbg P x = Ok (gm_ref t d rounds rc x) /\ gm_permutation_not_opt dbg P x = Ok (gm_ref t d rounds rc x) /\
       gm_permutation dbg P' x = Ok (gm_ref t d rounds rc' x) /\ gm_permutation_not_opt dbg P' x = Ok (gm_ref t d rounds rc' x)).
    { intros x Hx Ht. destruct (gm_reference HF dbg rng t d rounds P x H Hx Ht ltac:(lia)) as [A B].
      destruct (gm_reference HF dbg rng' t d rounds P' x H' Hx Ht ltac:(lia)) as [A' B']. auto. }
    assert (Eqs : forall s, s <> r -> s < rounds -> forall y, gm_stp t d rounds rc y s = gm_stp t d rounds rc' y s).
    { intros s H1 H2 y. unfold gm_stp. rewrite No by assumption. reflexivity. }
    split.
    - intros Ht.
      assert (D : Z.gcd (Z.of_nat d) (p - 1) = 1%Z -> Df t (gm_ref t d rounds rc) (gm_ref t d rounds rc')).
      { intros Hg x Hx. rewrite !gm_ref_steps by lia. revert x Hx.
        apply (df_fold t (gm_stp t d rounds rc) (gm_stp t d rounds rc') (seq 0 rounds) r).
        - apply seq_NoDup.
        - apply in_seq. lia.
        - intros b _. apply gm_stp_lbij. lia.
        - apply lb_keeps, gm_stp_lbij. lia.
        - intros b Hb Nb x Hx. apply in_seq in Hb. apply Eqs; [exact Nb|lia].
        - intros x Hx C.
          assert (C' : gm_ref_round t d (nth r rc f0) x = gm_ref_round t d (nth r rc' f0) x).
          { unfold gm_stp in C. destruct (r =? rounds - 1); [exact C|]. apply (lbij_inj t _ (gm_rotate_lbij t ltac:(lia))) in C; [exact C|apply gm_ref_round_length..]. }
          apply (f_equal (fun l => nth 1 l f0)) in C'. unfold gm_ref_round in C'. rewrite !nth_map_seq in C' by lia. cbn [Nat.eqb] in C'.
          assert (Cp : fpow (fadd (nth 0 x f0) (nth r rc f0)) d = fpow (fadd (nth 0 x f0) (nth r rc' f0)) d).
          { match type of C' with fadd ?a ?b = fadd ?a ?c => transitivity (fsub (fadd a b) a); [ring|rewrite C'; ring] end. }
          apply (proj2 (pow_injective_iff HP d Hd0) Hg) in Cp. exact (add_ne _ _ _ Nr Cp). }
      assert (D' : (forall x, length x = t -> gm_ref t d rounds rc x <> gm_ref t d rounds rc' x) -> Z.gcd (Z.of_nat d) (p - 1) = 1%Z).
      { intros Hdf. apply (pow_injective_iff HP d Hd0). intros a b Eab. destruct (feqb a b) eqn:Q; [apply (ff_eqb _ HF); exact Q|exfalso].
        assert (Nab : fsub a b <> f0). { intros C. apply (fsub_eq_0 HF) in C. subst. rewrite (proj2 (ff_eqb _ HF b b) eq_refl) in Q. discriminate. }
        set (c := nth r rc f0) in *. set (c' := nth r rc' f0) in *. set (l := fmul (fsub c c') (finv (fsub a b))).
        assert (Hl : fmul l (fsub a b) = fsub c c') by (unfold l; transitivity (fmul (fsub c c') (fmul (finv (fsub a b)) (fsub a b))); [ring|rewrite (ff_inv _ HF) by exact Nab; ring]).
        set (u := fsub (fmul l a) c).
        assert (U1 : fadd u c = fmul l a) by (unfold u; ring).
        assert (U2 : fadd u c' = fmul l b) by (unfold u; transitivity (fadd (fmul l b) (fsub (fmul l (fsub a b)) (fsub c c'))); [ring|rewrite Hl; ring]).
        set (s := u :: repeat f0 (t - 1)). assert (Hs : length s = t) by (unfold s; cbn; rewrite repeat_length; lia).
        assert (Es : gm_stp t d rounds rc s r = gm_stp t d rounds rc' s r).
        { assert (Er : gm_ref_round t d c s = gm_ref_round t d c' s).
          { unfold gm_ref_round. apply map_seq_ext. intros i Hi. destruct (i =? 0); [reflexivity|]. f_equal. unfold s. cbn [nth]. rewrite U1, U2, !(fpow_mul_base HF), Eab. reflexivity. }
          unfold gm_stp. fold c c'. rewrite Er. reflexivity. }
        assert (B : lbij t (fun y => fold_left (gm_stp t d rounds rc) (seq 0 r) y)) by (apply lbij_fold; intros; apply gm_stp_lbij; lia).
        destruct B as [_ [g Hg]]. destruct (Hg s Hs) as [Lg [Gs _]].
        apply (Hdf (g s) Lg). rewrite !gm_ref_steps by lia. replace rounds with (r + (1 + (rounds - (r + 1)))) at 2 4 by lia.
        rewrite !seq_app, !fold_left_app. cbn [seq fold_left Nat.add].
        rewrite <- (fold_ext_in (gm_stp t d rounds rc) (gm_stp t d rounds rc') (seq 0 r)) by (intros q Hq y; apply in_seq in Hq; apply Eqs; lia).
        rewrite Gs, Es. apply fold_ext_in. intros q Hq y. apply in_seq in Hq. apply Eqs; lia. }
      split; split.
      + intros Hdf. apply D'. intros x Hx. destruct (Hdf x Hx) as (y & z & E1 & E2 & NE). destruct (Ref x Hx ltac:(lia)) as (A & _ & A' & _).
        rewrite A in E1. rewrite A' in E2. injection E1 as <-. injection E2 as <-. exact NE.
      + intros Hg x Hx. destruct (Ref x Hx ltac:(lia)) as (A & _ & A' & _). do 2 eexists. split; [exact A|]. split; [exact A'|]. exact (D Hg x Hx).
      + intros Hdf. apply D'. intros x Hx. destruct (Hdf x Hx) as (y & z & E1 & E2 & NE). destruct (Ref x Hx ltac:(lia)) as (_ & A & _ & A').
        rewrite A in E1. rewrite A' in E2. injection E1 as <-. injection E2 as <-. exact NE.
      + intros Hg x Hx. destruct (Ref x Hx ltac:(lia)) as (_ & A & _ & A'). do 2 eexists. split; [exact A|]. split; [exact A'|]. exact (D Hg x Hx).
    - intros ->.
      assert (E1 : forall k y, length y = 1 -> forall rr : list F, gm_stp 1 d rounds rr y k = y).
      { intros k [|a [|b y]] Hy rr; try discriminate. unfold gm_stp, gm_ref_rotate, gm_ref_round. destruct (k =? rounds - 1); reflexivity. }
      assert (E : forall (rr x : list F), length x = 1 -> gm_ref 1 d rounds rr x = x).
      { intros rr x Hx. rewrite gm_ref_steps by lia. clearbody rc rc'. induction (seq 0 rounds) as [|k l IH]; [reflexivity|]. cbn [fold_left]. rewrite E1 by exact Hx. exact IH. }
      split; intros x Hx; destruct (Ref x Hx ltac:(lia)) as (A & B & A' & B'); rewrite E in A, B, A', B' by exact Hx; exists x; split; assumption.
  Qed.
End Const.

(** ** the shipped tables *)
Theorem p2_shipped_constants I : In I p2_instances ->
  forall F (Fo : FOps F), is_prime_field Fo (qi_p I) -> forall dbg,
  exists Q, p2_instance_params dbg I = Ok Q /\
    forall (rc' : list (list F)) mi r, p2_data_ok (qi_t I) (qi_rf I) (qi_rp I) (map f_of_Z (qi_diag I)) rc' ->
      only_row (p2_reads (qi_t I) (qi_rf I) (qi_rp I)) r (map (map f_of_Z) (qi_rc I)) rc' ->
      exists Q', p2_new dbg (qi_t I) (qi_d I) (qi_rf I) (qi_rp I) (map f_of_Z (qi_diag I)) mi rc' = Ok Q' /\
        differ_everywhere (qi_t I) (p2_permutation dbg Q) (p2_permutation dbg Q').
Proof.
  intros HI F Fo HP dbg. destruct (p2_shipped_permutation I HI F Fo HP dbg) as [Q [HQ [HB _]]].
  destruct (p2_all I HI) as [P [Hok [Hpr H]]]. destruct (p2_cert_parts P Hok I H) as [Ep [H7 [Hb [HA [HC HE]]]]].
  exists Q. split; [exact HQ|]. intros rc' mi r Hd' Ho. rewrite (p2_instance_residues dbg I HC Hb) in HQ.
  destruct (p2_new_succeeds (F := F) dbg _ _ _ _ _ (map f_of_Z (qi_diag I)) mi rc' HA) as [Q' HQ']. exists Q'. split; [exact HQ'|].
  destruct HA as [Hd He Hw Hp1 Hg Hov].
  refine (p2_constants HP dbg _ _ _ _ _ _ _ _ _ Q Q' r HQ HQ' Hov Hw Hd _ Hd' HB Ho). apply p2_consistent_data; assumption.
Qed.

Theorem ps_shipped_constants I : In I ps_instances ->
  forall F (Fo : FOps F), is_prime_field Fo (si_p I) -> forall dbg,
  exists Q, ps_instance_params dbg I = Ok Q /\
    forall (rc' : list (list F)) r, (forall s, s < si_rf I + si_rp I -> length (nth s rc' []) = si_t I) ->
      only_row (all_reads (si_t I) (si_rf I) (si_rp I)) r (map (map f_of_Z) (si_rc I)) rc' ->
      exists Q', ps_new dbg (si_t I) (si_d I) (si_rf I) (si_rp I) (map (map f_of_Z) (si_mds I)) rc' = Ok Q' /\
        differ_everywhere (si_t I) (ps_permutation dbg Q) (ps_permutation dbg Q') /\
        differ_everywhere (si_t I) (ps_permutation_not_opt dbg Q) (ps_permutation_not_opt dbg Q').
Proof.
  intros HI F Fo HP dbg. destruct (ps_shipped_permutation I HI) as [_ HS]. destruct (HS F Fo HP dbg) as [Q [HQ _]]. clear HS.
  destruct (ps_all I HI) as [P [Hok [Hpr H]]]. destruct (ps_cert_parts P Hok I H) as [Ep [H7 [Hb [HA [HC HE]]]]].
  exists Q. split; [exact HQ|]. intros rc' r Hd' Ho. rewrite (ps_instance_residues dbg I HC Hb) in HQ.
  pose proof (prime_field_is_field HP) as HF. destruct HA as [Hd He Hw Hp1 Hg Hov].
  assert (Hdims : dims (si_t I) (si_t I) (map (map (f_of_Z (F := F))) (si_mds I))) by (apply map_of_Z_dims, (sc_mds_shape I HC)).
  assert (Hrows : forall r, r < si_rf I + si_rp I -> length (nth r (map (map (f_of_Z (F := F))) (si_rc I)) []) = si_t I).
  { intros k Hk. apply (map_of_Z_row _ _ _ k (sc_rc_shape I HC) Hk). }
  assert (R1 : ps_rows_ok (si_t I) (si_rf I) (si_rp I) (map (map (f_of_Z (F := F))) (si_rc I))) by (intros k Hk; rewrite Hrows by exact Hk; lia).
  assert (R2 : ps_rows_ok (si_t I) (si_rf I) (si_rp I) rc') by (intros k Hk; rewrite Hd' by exact Hk; lia).
  destruct (proj1 (ps_new_success HF dbg (si_t I) (si_d I) (si_rf I) (si_rp I) _ _ Hdims R1 ltac:(intros k Hk; rewrite Hrows by exact Hk; lia) Hov)) as [A _].
  specialize (A (ex_intro _ Q HQ)).
  destruct (proj2 (proj1 (ps_new_success HF dbg (si_t I) (si_d I) (si_rf I) (si_rp I) _ rc' Hdims R2 ltac:(intros k Hk; rewrite Hd' by exact Hk; lia) Hov)) A) as [Q' HQ'].
  exists Q'. split; [exact HQ'|]. exact (ps_constants HP dbg _ _ _ _ _ _ _ Q Q' r HQ HQ' Hov Hdims R1 R2 Hg Ho).
Qed.
