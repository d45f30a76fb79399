(** * ProofQuiet2: quiet partial rounds of Poseidon2, Poseidon and Neptune *)
From Verif Require Import Base Field Spec FieldPow LinAlg LoopLemmas Bij SpecPoseidon2 SpecPoseidon SpecNeptune SpecMinPoly SpecFirst LinOp
  ModelPoseidon2 ModelPoseidon ModelNeptune ModelSubspace ProofPoseidon2 ProofPoseidon ProofNeptune ProofNeptuneParams ProofNeptuneBij ProofBranch2 ProofQuiet.
From Verif Require Import MatLoops.
From Verif Require ProofSubspaceMeaning ProofPoseidonFin.
Local Open Scope nat_scope.

Section PRound.
  Context {F : Type} {Fo : FOps F} (HF : is_field Fo).
  Add Ring FringQu2 : (ff_ring _ HF).

  (** S-box s on element 0, constants c on the others, matrix A, constants e *)
  Definition pround (t : nat) (A : @mat F) (s : nat -> F -> F) (c e : nat -> nat -> F) (r : nat) (x : list F) : list F :=
    map (fun i => fadd (nth i (mat_apply t t A (map (fun i => if i =? 0 then s r (nth 0 x f0) else fadd (nth i x f0) (c r i)) (seq 0 t))) f0) (e r i)) (seq 0 t).
  Lemma pround_length t A s c e r x : length (pround t A s c e r x) = t.
  Proof. unfold pround. rewrite map_length, seq_length. reflexivity. Qed.
  Lemma pround_diff t A s c e r x y : nth 0 x f0 = nth 0 y f0 ->
    dv t (pround t A s c e r x) (pround t A s c e r y) = mat_apply t t A (dv t x y).
  Proof.
    intros E. set (pre := fun x : list F => map (fun i => if i =? 0 then s r (nth 0 x f0) else fadd (nth i x f0) (c r i)) (seq 0 t)).
    transitivity (dv t (mat_apply t t A (pre x)) (mat_apply t t A (pre y))).
    - apply (list_ext f0); [rewrite !dv_length; reflexivity|]. intros i Hi. rewrite dv_length in Hi. rewrite !dv_nth by exact Hi.
      unfold pround. rewrite !nth_map_seq by exact Hi. fold (pre x). fold (pre y). ring.
    - rewrite (dv_mat HF). f_equal. apply (list_ext f0); [rewrite !dv_length; reflexivity|]. intros i Hi. rewrite dv_length in Hi.
      rewrite !dv_nth by exact Hi. unfold pre. rewrite !nth_map_seq by exact Hi. destruct (Nat.eqb_spec i 0) as [->|]; [rewrite E; ring|ring].
  Qed.
  Lemma pround_inj t A s c e r x y : nonsingular t A -> (forall a b, s r a = s r b -> a = b) -> length x = t -> length y = t ->
    pround t A s c e r x = pround t A s c e r y -> x = y.
  Proof.
    intros HA Hs Lx Ly E. set (pre := fun x : list F => map (fun i => if i =? 0 then s r (nth 0 x f0) else fadd (nth i x f0) (c r i)) (seq 0 t)).
    assert (Lp : forall x, length (pre x) = t) by (intros z; unfold pre; rewrite map_length, seq_length; reflexivity).
    assert (E1 : mat_apply t t A (pre x) = mat_apply t t A (pre y)).
    { apply (list_ext f0); [rewrite !mat_apply_length; reflexivity|]. intros i Hi. rewrite mat_apply_length in Hi.
      apply (f_equal (fun l => nth i l f0)) in E. unfold pround in E. rewrite !nth_map_seq in E by exact Hi. fold (pre x) in E. fold (pre y) in E.
      transitivity (fsub (fadd (nth i (mat_apply t t A (pre x)) f0) (e r i)) (e r i)); [ring|]. rewrite E. ring. }
    apply (lbij_inj t _ (lbij_mat HF t A HA) (pre x) (pre y) (Lp x) (Lp y)) in E1.
    apply (list_ext f0); [lia|]. intros i Hi. rewrite Lx in Hi. apply (f_equal (fun l => nth i l f0)) in E1.
    unfold pre in E1. rewrite !nth_map_seq in E1 by exact Hi. clear Hi. destruct (Nat.eqb_spec i 0) as [E0|N]; [rewrite E0; apply Hs, E1|].
    transitivity (fsub (fadd (nth i x f0) (c r i)) (c r i)); [ring|]. rewrite E1. ring.
  Qed.

  (** what a step made of such rounds does *)
  Definition step_is (t : nat) (A : @mat F) (step : nat -> list F -> res (list F)) (s : nat -> F -> F) (lo n : nat) : Prop :=
    exists c e, forall r x, lo <= r < lo + n -> length x = t -> step r x = Ok (pround t A s c e r x).

  Theorem step_quiet t A step s lo n : 1 <= t -> step_is t A step s lo n ->
    (active_rounds t step lo n 1 <-> t <= n /\ forall v, hidden t A t v -> v = repeat f0 t) /\
    (quiet_pair t step lo n <-> n < t \/ exists v, hidden t A t v /\ v <> repeat f0 t).
  Proof.
    intros Ht [c [e H]]. split.
    - apply (active_summary HF t A step (pround t A s c e) lo n Ht H (pround_length t A s c e)). intros r x y. apply pround_diff.
    - apply (quiet_summary HF t A step (pround t A s c e) lo n Ht H (pround_length t A s c e)). intros r x y. apply pround_diff.
  Qed.
  Lemma step_is_sub t A step s lo n b k : b + k <= n -> step_is t A step s lo n -> step_is t A step s (lo + b) k.
  Proof. intros Hb [c [e H]]. exists c, e. intros r x Hr. apply H. lia. Qed.
  Theorem step_count t A step s lo n : 1 <= t -> step_is t A step s lo n -> nonsingular t A -> (forall r a b, s r a = s r b -> a = b) ->
    (forall v, hidden t A t v -> v = repeat f0 t) -> active_rounds t step lo n (n / t).
  Proof.
    intros Ht HS HA Hs HO. pose proof HS as [c [e H]]. apply (count_blocks t step lo n Ht).
    - intros r x Hr Lx. exists (pround t A s c e r x). split; [apply H; assumption|apply pround_length].
    - intros r x y z Hr Lx Ly E1 E2. rewrite H in E1, E2 by assumption. injection E1 as E1. injection E2 as E2.
      apply (pround_inj t A s c e r x y HA (Hs r) Lx Ly). congruence.
    - intros b Hb. apply (step_quiet t A step s (lo + b) t Ht (step_is_sub t A step s lo n b t Hb HS)). split; [lia|exact HO].
  Qed.

  Lemma not_distinct_repeated t (m : nat -> F) : ~ distinct_from_1 t m -> repeated_from_1 t m.
  Proof.
    intros N.
    assert (D : forall j, (forall i, 1 <= i < t -> i <> j -> m i <> m j) \/ exists i, 1 <= i < t /\ i <> j /\ m i = m j).
    { intros j. destruct (zeros_or_not (fun i => (1 <=? i) && negb (i =? j) && feqb (m i) (m j)) t) as [Z|[i [Hi E]]].
      - left. intros i Hi Nij E. specialize (Z i (proj2 Hi)). rewrite E, (feqb_refl HF) in Z.
        destruct (Nat.leb_spec 1 i); [|lia]. destruct (Nat.eqb_spec i j); [contradiction|]. discriminate Z.
      - right. exists i. apply andb_true_iff in E as [E E3]. apply andb_true_iff in E as [E1 E2]. apply Nat.leb_le in E1. apply negb_true_iff, Nat.eqb_neq in E2.
        apply (ff_eqb _ HF) in E3. split; [lia|]. split; assumption. }
    assert (G : forall k, k <= t -> repeated_from_1 t m \/ forall j, 1 <= j < k -> forall i, 1 <= i < t -> i <> j -> m i <> m j).
    { induction k as [|k IH]; intros Hk; [right; intros; lia|]. destruct (IH ltac:(lia)) as [R|Z]; [left; exact R|].
      destruct (le_lt_dec 1 k) as [L|L]; [|right; intros; lia]. destruct (D k) as [Z'|[i [Hi [Ni E]]]].
      - right. intros j Hj. destruct (Nat.eq_dec j k) as [->|Nj]; [exact Z'|apply Z; lia].
      - left. exists i, k. split; [exact Hi|]. split; [lia|]. split; assumption. }
    destruct (G t (le_n t)) as [R|Z]; [exact R|]. exfalso. apply N. intros i j Hi Hj Nij. apply Z; assumption.
  Qed.
  Lemma distinct_not_repeated t (m : nat -> F) : distinct_from_1 t m -> ~ repeated_from_1 t m.
  Proof. intros D [i [j [Hi [Hj [N E]]]]]. exact (D i j Hi Hj N E). Qed.

  Lemma hidden_ext t (A B : @mat F) n v : (forall i j, i < t -> j < t -> A i j = B i j) -> hidden t A n v -> hidden t B n v.
  Proof.
    intros E [Lv Hv]. split; [exact Lv|]. intros k Hk. 
    rewrite (iter_ext (mat_apply t t B) (mat_apply t t A)); [apply Hv, Hk|]. intros w. apply mat_apply_ext; [|reflexivity].
    intros i j Hi Hj. symmetry. apply E; assumption.
  Qed.
  Lemma ones_step t A (m : nat -> F) step s lo n : 1 <= t -> (forall i j, i < t -> j < t -> A i j = ones_plus m i j) -> step_is t A step s lo n ->
    (active_rounds t step lo n 1 <-> t <= n /\ distinct_from_1 t m) /\ (quiet_pair t step lo n <-> n < t \/ repeated_from_1 t m).
  Proof.
    intros Ht EA HS. destruct (step_quiet t A step s lo n Ht HS) as [H1 H2].
    assert (O : (forall v, hidden t A t v -> v = repeat f0 t) <-> distinct_from_1 t m).
    { rewrite <- (ones_plus_hidden HF t m Ht). split; intros H v Hv; apply H; (eapply hidden_ext; [|exact Hv]); intros i j Hi Hj; [symmetry|]; apply EA; assumption. }
    split; [rewrite H1, O; reflexivity|]. rewrite H2. split; (intros [L|H]; [left; exact L|right]).
    - destruct H as [v [Hv N]]. apply not_distinct_repeated. intros D. apply N. apply (proj2 O D), Hv.
    - destruct H as [i [j [Hi [Hj [N E]]]]]. destruct (ones_plus_equal HF t m i j t Hi Hj N E) as [v [Hv Nv]]. exists v. split; [|exact Nv].
      apply (hidden_ext t (ones_plus m)); [intros; symmetry; apply EA; assumption|exact Hv].
  Qed.
  Lemma ones_observable t A (m : nat -> F) : 1 <= t -> (forall i j, i < t -> j < t -> A i j = ones_plus m i j) -> distinct_from_1 t m ->
    forall v, hidden t A t v -> v = repeat f0 t.
  Proof. intros Ht EA D v Hv. apply (proj2 (ones_plus_hidden HF t m Ht) D). apply (hidden_ext t A); assumption. Qed.

  (** ** Poseidon2 *)
  Definition p2_eff (t : nat) (diag : list F) (i : nat) : F := if t <? 4 then (if i =? t - 1 then fadd f1 f1 else f1) else nth i diag f0.
  Lemma p2_eff_matrix t (diag : list F) i j : int_matrix t diag i j = ones_plus (p2_eff t diag) i j.
  Proof.
    unfold int_matrix, ones_plus, p2_eff. destruct (t <? 4), (i =? j); try reflexivity.
    - destruct (i =? t - 1); unfold fnat; cbn [sumn]; ring.
    - unfold fnat; cbn [sumn]. ring.
  Qed.
  Lemma p2_eff_distinct t (diag : list F) : p2_width t ->
    (distinct_from_1 t (p2_eff t diag) <-> (4 <= t -> distinct_from_1 t (fun i => nth i diag f0))) /\
    (repeated_from_1 t (p2_eff t diag) <-> 4 <= t /\ repeated_from_1 t (fun i => nth i diag f0)).
  Proof.
    intros W. destruct (le_lt_dec 4 t) as [L|L].
    - assert (E : p2_eff t diag = fun i => nth i diag f0) by (unfold p2_eff; destruct (Nat.ltb_spec t 4); [lia|reflexivity]). rewrite E. split; intuition.
    - assert (D : distinct_from_1 t (p2_eff t diag)).
      { intros i j Hi Hj N. unfold p2_eff. destruct (Nat.ltb_spec t 4); [|lia]. unfold p2_width in W. cbn [In] in W.
        assert (N2 : fadd f1 f1 <> (f1 : F)).
        { intros E. apply (ff_one_neq_zero _ HF). transitivity (fsub (fadd f1 f1) f1); [ring|]. rewrite E. ring. }
        destruct (Nat.eqb_spec i (t - 1)), (Nat.eqb_spec j (t - 1)); [lia|exact N2|intros E; exact (N2 (eq_sym E))|exfalso; lia]. }
      split; [split; [lia|intros _; exact D]|]. split; [intros R; destruct (distinct_not_repeated _ _ D R)|lia].
  Qed.
  Lemma p2_step_is dbg t d rf rp diag mi rc P lo n : p2_new dbg t d rf rp diag mi rc = Ok P -> (N.of_nat rf + N.of_nat rp < usize_mod)%N ->
    p2_width t -> sbox_degree d -> (4 <= t -> t <= length diag) -> (forall r, lo <= r < lo + n -> 1 <= length (nth r rc [])) ->
    step_is t (int_matrix t diag) (p2_partial_round P) (fun r a => fpow (fadd a (nth 0 (nth r rc []) f0)) d) lo n.
  Proof.
    intros HN Hov W Hd Hg Hr. destruct (p2_new_ok _ _ _ _ _ _ _ _ _ HN Hov) as [_ [_ ->]]. exists (fun _ _ => f0), (fun _ _ => f0).
    intros r x H Lx. rewrite (p2_partial_round_ok HF); cbn [p2_t p2_d p2_diag p2_rc]; [|exact W|exact Hd|exact Lx|apply Hr, H|intros; apply Hg; assumption].
    f_equal. unfold p2_ref_partial, pround. apply (list_ext f0); [rewrite mat_apply_length, map_length, seq_length; reflexivity|].
    intros i Hi. rewrite mat_apply_length in Hi. rewrite nth_map_seq by exact Hi.
    assert (E : map (fun i => if i =? 0 then fpow (fadd (nth 0 x f0) (nth 0 (nth r rc []) f0)) d else nth i x f0) (seq 0 t) =
      map (fun i => if i =? 0 then fpow (fadd (nth 0 x f0) (nth 0 (nth r rc []) f0)) d else fadd (nth i x f0) f0) (seq 0 t)).
    { apply map_ext. intros k. destruct (k =? 0); [reflexivity|ring]. }
    rewrite E. ring.
  Qed.
  Theorem p2_quiet dbg t d rf rp diag mi rc P lo n : p2_new dbg t d rf rp diag mi rc = Ok P -> (N.of_nat rf + N.of_nat rp < usize_mod)%N ->
    p2_width t -> sbox_degree d -> (4 <= t -> t <= length diag) -> (forall r, lo <= r < lo + n -> 1 <= length (nth r rc [])) ->
    (active_rounds t (p2_partial_round P) lo n 1 <-> t <= n /\ (4 <= t -> distinct_from_1 t (fun i => nth i diag f0))) /\
    (quiet_pair t (p2_partial_round P) lo n <-> n < t \/ 4 <= t /\ repeated_from_1 t (fun i => nth i diag f0)).
  Proof.
    intros HN Hov W Hd Hg Hr. pose proof (p2_step_is _ _ _ _ _ _ _ _ _ lo n HN Hov W Hd Hg Hr) as HS. pose proof (p2_width_pos _ W).
    destruct (ones_step t (int_matrix t diag) (p2_eff t diag) _ _ lo n ltac:(lia) (fun i j _ _ => p2_eff_matrix t diag i j) HS) as [H1 H2].
    destruct (p2_eff_distinct t diag W) as [D R]. rewrite H1, H2, D, R. split; reflexivity.
  Qed.

  (** ** Poseidon *)
  Lemma ps_step_is dbg t d rf rp mds rc P lo n : ps_new dbg t d rf rp mds rc = Ok P -> (N.of_nat rf + N.of_nat rp < usize_mod)%N ->
    dims t t mds -> (forall r, lo <= r < lo + n -> t <= length (nth r rc [])) ->
    2 <= t /\ step_is t (entry mds) (ps_partial_round dbg P) (fun r a => fpow (fadd a (nth 0 (nth r rc []) f0)) d) lo n.
  Proof.
    intros HN Hov Hm Hr. pose proof (proj1 (ProofPoseidonFin.ps_new_wide _ _ _ _ _ _ _ _ HN)) as Ht. split; [exact Ht|].
    destruct (ps_new_ok _ _ _ _ _ _ _ _ HN Hov) as [Hd [_ [_ [m_i [v [w [opt [_ [_ ->]]]]]]]]].
    exists (fun r i => nth i (nth r rc []) f0), (fun _ _ => f0).
    intros r x H Lx. rewrite (ps_partial_round_ok HF); cbn [ps_t ps_d ps_mds ps_rc]; [|split; [exact Hd|split; [exact Hm|cbn [ps_t]; lia]]|exact Lx|apply Hr, H].
    f_equal. unfold ps_ref_partial, pround. apply (list_ext f0); [rewrite mat_apply_length, map_length, seq_length; reflexivity|].
    intros i Hi. rewrite mat_apply_length in Hi. rewrite nth_map_seq by exact Hi.
    rewrite (mat_apply_ext t t (entry mds) (entry mds) _
      (map (fun i => if i =? 0 then fpow (fadd (nth 0 x f0) (nth 0 (nth r rc []) f0)) d else fadd (nth i x f0) (nth i (nth r rc []) f0)) (seq 0 t)));
      [ring|reflexivity|]. intros j Hj. rewrite !nth_map_seq by exact Hj. cbv zeta. destruct (Nat.eqb_spec j 0) as [E|E]; [rewrite E|]; reflexivity.
  Qed.
  Lemma alg1_hidden t (M : @mat F) : 2 <= t -> (algorithm_1 M t <-> forall v, hidden t M t v -> v = repeat f0 t).
  Proof.
    intros Ht. rewrite (ProofSubspaceMeaning.algorithm_1_meaning HF t M Ht). split.
    - intros H v [Lv Hv]. apply H; assumption.
    - intros H v Lv Hv. apply H. split; assumption.
  Qed.
  Theorem ps_quiet dbg t d rf rp mds rc P lo n : ps_new dbg t d rf rp mds rc = Ok P -> (N.of_nat rf + N.of_nat rp < usize_mod)%N ->
    dims t t mds -> (forall r, lo <= r < lo + n -> t <= length (nth r rc [])) ->
    (active_rounds t (ps_partial_round dbg P) lo n 1 <-> t <= n /\ algorithm_1 (entry mds) t) /\
    (quiet_pair t (ps_partial_round dbg P) lo n <-> n < t \/ ~ algorithm_1 (entry mds) t).
  Proof.
    intros HN Hov Hm Hr. destruct (ps_step_is _ _ _ _ _ _ _ _ lo n HN Hov Hm Hr) as [Ht HS].
    destruct (step_quiet t (entry mds) _ _ lo n ltac:(lia) HS) as [H1 H2]. pose proof (alg1_hidden t (entry mds) Ht) as O.
    split; [rewrite H1, O; reflexivity|]. rewrite H2, O. split; (intros [L|H]; [left; exact L|right]).
    - destruct H as [v [Hv N]]. intros C. apply N, C, Hv.
    - destruct (hidden_dec HF t (entry mds) t) as [E|E]; [exact E|contradiction].
  Qed.

  (** ** Neptune *)
  Lemma np_step_is dbg fuel rng t d rf rp P lo n : np_new dbg fuel rng t d rf rp = Ok P -> (N.of_nat rf + N.of_nat rp < usize_mod)%N ->
    1 <= t -> lo + n <= rf + rp -> step_is t (ones_plus (fun i => nth i (np_mu P) f0)) (np_internal_round P) (fun _ a => fpow a d) lo n.
  Proof.
    intros HN Hov Ht Hr. destruct (np_new_ok HF _ _ _ _ _ _ _ _ HN Hov) as [[Hd _] (Et & Ed & Eb & Ep & Ee & Er & Erc & Em & Lm & _)].
    exists (fun _ _ => f0), (fun r i => nth i (nth r (np_rc P) []) f0). intros r x H Lx. unfold np_internal_round.
    rewrite (np_isbox_ok HF P x t Lx Ht) by (rewrite Ed; exact Hd). cbn [bind]. rewrite Ed.
    rewrite (np_int_ok HF P _ t) by (rewrite ?map_length, ?seq_length; (reflexivity || assumption)). cbn [bind].
    assert (L : length (np_rc P) = rf + rp) by (rewrite Erc; apply mk_mat_length).
    rewrite (idx_ok []) by lia. cbn [bind]. f_equal. rewrite (add_rc_ok _ _ t); [|apply mat_apply_length|].
    2:{ rewrite Erc, mk_mat_row by lia. rewrite map_length, seq_length. lia. }
    unfold pround. apply map_seq_ext. intros i Hi. f_equal. f_equal.
    apply mat_apply_ext; [reflexivity|]. intros j Hj. rewrite !nth_map_seq by exact Hj. destruct (j =? 0); [reflexivity|ring].
  Qed.
  Theorem np_quiet dbg fuel rng t d rf rp P lo n : np_new dbg fuel rng t d rf rp = Ok P -> (N.of_nat rf + N.of_nat rp < usize_mod)%N ->
    1 <= t -> lo + n <= rf + rp ->
    (active_rounds t (np_internal_round P) lo n 1 <-> t <= n /\ distinct_from_1 t (fun i => nth i (np_mu P) f0)) /\
    (quiet_pair t (np_internal_round P) lo n <-> n < t \/ repeated_from_1 t (fun i => nth i (np_mu P) f0)).
  Proof.
    intros HN Hov Ht Hr. apply (ones_step t (ones_plus (fun i => nth i (np_mu P) f0)) _ _ _ lo n Ht (fun i j _ _ => eq_refl)
      (np_step_is _ _ _ _ _ _ _ _ lo n HN Hov Ht Hr)).
  Qed.
End PRound.

Section PCount.
  Context {F : Type} {Fo : FOps F} {p : Z} (HP : is_prime_field Fo p).
  Let HF : is_field Fo := prime_field_is_field HP.
  Add Ring FringQu3 : (ff_ring _ HF).

  Lemma sbox_inj d (c a b : F) : d <> 0 -> Z.gcd (Z.of_nat d) (p - 1) = 1%Z -> fpow (fadd a c) d = fpow (fadd b c) d -> a = b.
  Proof.
    intros Hd Hg E. destruct (pow_inverse HP d Hd Hg) as [r Hr]. apply (f_equal r) in E. rewrite !(proj1 (Hr _)) in E.
    transitivity (fsub (fadd a c) c); [ring|]. rewrite E. ring.
  Qed.
  Lemma degree_pos d : sbox_degree d -> d <> 0.
  Proof. unfold sbox_degree. cbn [In]. intros H ->. intuition discriminate. Qed.

  Theorem p2_count dbg t d rf rp diag mi rc P lo n : p2_new dbg t d rf rp diag mi rc = Ok P -> (N.of_nat rf + N.of_nat rp < usize_mod)%N ->
    p2_width t -> sbox_degree d -> (4 <= t -> t <= length diag) -> (forall r, lo <= r < lo + n -> 1 <= length (nth r rc [])) ->
    Z.gcd (Z.of_nat d) (p - 1) = 1%Z -> invertible t (int_matrix t diag) -> (4 <= t -> distinct_from_1 t (fun i => nth i diag f0)) ->
    active_rounds t (p2_partial_round P) lo n (n / t).
  Proof.
    intros HN Hov W Hd Hg Hr Hc HI HD. pose proof (p2_step_is HF _ _ _ _ _ _ _ _ _ lo n HN Hov W Hd Hg Hr) as HS. pose proof (p2_width_pos _ W).
    apply (step_count HF t _ _ _ lo n ltac:(lia) HS).
    - apply (invertible_nonsingular HF). exact HI.
    - intros r a b. apply sbox_inj; [apply degree_pos, Hd|exact Hc].
    - apply (ones_observable HF t _ (p2_eff t diag) ltac:(lia) (fun i j _ _ => p2_eff_matrix HF t diag i j)). apply (p2_eff_distinct HF t diag W). exact HD.
  Qed.
  Theorem ps_count dbg t d rf rp mds rc P lo n : ps_new dbg t d rf rp mds rc = Ok P -> (N.of_nat rf + N.of_nat rp < usize_mod)%N ->
    dims t t mds -> (forall r, lo <= r < lo + n -> t <= length (nth r rc [])) ->
    Z.gcd (Z.of_nat d) (p - 1) = 1%Z -> invertible t (entry mds) -> algorithm_1 (entry mds) t ->
    active_rounds t (ps_partial_round dbg P) lo n (n / t).
  Proof.
    intros HN Hov Hm Hr Hc HI HA. destruct (ps_step_is HF _ _ _ _ _ _ _ _ lo n HN Hov Hm Hr) as [Ht HS].
    destruct (ps_new_ok _ _ _ _ _ _ _ _ HN Hov) as [Hd _].
    apply (step_count HF t _ _ _ lo n ltac:(lia) HS).
    - apply (invertible_nonsingular HF). exact HI.
    - intros r a b. apply sbox_inj; [apply degree_pos, Hd|exact Hc].
    - apply (alg1_hidden HF t _ Ht). exact HA.
  Qed.
  Theorem np_count dbg fuel rng t d rf rp P lo n : np_new dbg fuel rng t d rf rp = Ok P -> (N.of_nat rf + N.of_nat rp < usize_mod)%N ->
    1 <= t -> lo + n <= rf + rp -> Z.gcd (Z.of_nat d) (p - 1) = 1%Z -> invertible t (np_int_matrix (fun i => fadd (nth i (np_mu P) f0) f1)) ->
    distinct_from_1 t (fun i => nth i (np_mu P) f0) -> active_rounds t (np_internal_round P) lo n (n / t).
  Proof.
    intros HN Hov Ht Hr Hc HI HD. pose proof (np_step_is HF _ _ _ _ _ _ _ _ lo n HN Hov Ht Hr) as HS.
    destruct (np_new_ok HF _ _ _ _ _ _ _ _ HN Hov) as [[Hd _] _].
    apply (step_count HF t _ _ _ lo n Ht HS).
    - apply (invertible_nonsingular HF). exact HI.
    - intros _ a b E. apply (sbox_inj d f0); [apply degree_pos, Hd|exact Hc|]. assert (Z : forall a : F, fadd a f0 = a) by (intros; ring). rewrite !Z. exact E.
    - apply (ones_plus_hidden HF t _ Ht). exact HD.
  Qed.
End PCount.

(** parameters that the constructors accept but whose partial rounds miss a difference *)
Section Accepted.
  Context {F : Type} {Fo : FOps F} (HF : is_field Fo).
  Add Ring FringQu4 : (ff_ring _ HF).

  Theorem p2_repeated_accepted dbg a b m rp rc : (N.of_nat 8 + N.of_nat rp < usize_mod)%N -> (forall r, 4 <= r < 4 + rp -> 1 <= length (nth r rc [])) ->
    exists P, p2_new dbg 4 5 8 rp [a; m; m; b] [] rc = Ok P /\ quiet_pair (Fo := Fo) 4 (p2_partial_round P) 4 rp.
  Proof.
    intros Hov Hr.
    assert (E : exists P, p2_new dbg 4 5 8 rp [a; m; m; b] [] rc = Ok P).
    { unfold p2_new. cbn [Nat.eqb orb assert bind]. change (8 mod 2 =? 0) with true. cbn [assert bind]. rewrite uadd_ok by exact Hov. cbn [bind]. eexists. reflexivity. }
    destruct E as [P HN]. exists P. split; [exact HN|].
    apply (proj2 (p2_quiet HF dbg 4 5 8 rp _ _ rc P 4 rp HN Hov ltac:(unfold p2_width; cbn; tauto) ltac:(unfold sbox_degree; cbn; tauto) (fun _ => le_n 4) Hr)).
    right. split; [lia|]. exists 1, 2. repeat split; lia.
  Qed.
  Theorem np_constant_accepted dbg fuel c t rf rp : 4 <= t -> t mod 2 = 0 -> rf mod 2 = 0 -> 1 <= fuel -> c <> f0 -> (N.of_nat rf + N.of_nat rp < usize_mod)%N ->
    exists P, np_new dbg fuel (fun _ => c) t 5 rf rp = Ok P /\ quiet_pair (Fo := Fo) t (np_internal_round P) (rf / 2) rp.
  Proof.
    intros Ht Hev Hrf Hfu Hc Hov. assert (HA : np_args t 5 rf) by (split; [unfold sbox_degree; cbn; tauto|split; assumption]).
    destruct (np_new_returns HF dbg fuel (fun _ => c) t 5 rf rp HA Hov) as [P HN]; [intros q; exists 0; split; [lia|exact Hc]|].
    exists P. split; [exact HN|]. pose proof (Nat.div_mod rf 2 ltac:(lia)).
    apply (proj2 (np_quiet HF dbg fuel _ t 5 rf rp P (rf / 2) rp HN Hov ltac:(lia) ltac:(lia))). right.
    destruct (np_new_ok HF _ _ _ _ _ _ _ _ HN Hov) as [_ (_ & _ & _ & _ & _ & _ & _ & _ & _ & Hm & _)].
    exists 1, 2. split; [lia|]. split; [lia|]. split; [lia|]. destruct (Hm 1 ltac:(lia)) as [k1 [_ [_ ->]]]. destruct (Hm 2 ltac:(lia)) as [k2 [_ [_ ->]]]. reflexivity.
  Qed.
End Accepted.
