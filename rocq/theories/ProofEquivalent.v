(** * ProofEquivalent: the script's factorisation functions compute the tables of PoseidonParams::new (C62) *)
From Verif Require Import Base Field Spec LinAlg LoopLemmas MatLoops FieldPow Elim ModelUtils ModelPoseidon2 ModelPoseidon
  SpecPoseidon SpecPoseidon2 ProofPoseidon2 ProofMatInverse ProofMatHelpers ProofEquivRC ProofPoseidon ProofPoseidonOpt ProofPoseidonFin
  ModelSubspace ModelGenerate ModelEquivalent ModelInstances ProofScriptPerm ProofGmimc.
From Verif Require SpecInstances ProofInstances ProofKats.
Local Open Scope nat_scope.

Section Equiv.
  Context {F : Type} {Fo : FOps F} (HF : is_field Fo).
  Add Ring FringEq : (ff_ring _ HF).

  Section Mats.
    Context (t : nat) (M : @mat F) (Ht : 2 <= t).

    Lemma sub_M_hat_mk A : sub_M_hat t (mk_mat t t A) = mk_mat (t - 1) (t - 1) (drop0 A).
    Proof.
      apply mk_mat_ext. intros i j Hi Hj. rewrite mk_mat_entry by lia. unfold drop0. f_equal; lia.
    Qed.
    Lemma sub_w_mk A : sub_w t (mk_mat t t A) = map (fun i => A (S i) 0) (seq 0 (t - 1)).
    Proof. apply map_seq_ext. intros i Hi. rewrite mk_mat_entry by lia. f_equal; lia. Qed.
    Lemma sub_v_mk A : sub_v t (mk_mat t t A) = v_of t A.
    Proof. apply map_seq_ext. intros i Hi. rewrite mk_mat_entry by lia. f_equal; lia. Qed.
    Lemma with_block_mk A : with_block t (mk_mat (t - 1) (t - 1) (drop0 A)) = mk_mat t t (mi_of A).
    Proof.
      apply mk_mat_ext. intros i j Hi Hj. unfold mi_of.
      destruct (Nat.leb_spec 1 i), (Nat.leb_spec 1 j), (Nat.eqb_spec i 0), (Nat.eqb_spec j 0); try lia; cbn [andb orb].
      - rewrite mk_mat_entry by lia. unfold drop0. f_equal; lia.
      - destruct (Nat.eqb_spec i j); [lia|reflexivity].
      - destruct (Nat.eqb_spec i j); [lia|reflexivity].
      - subst. reflexivity.
    Qed.
    Lemma times_mk A B : times t (mk_mat t t A) (mk_mat t t B) = mk_mat t t (mat_mul t A B).
    Proof. apply mk_mat_ext. intros i j Hi Hj. apply mat_mul_ext; intros k Hk; apply mk_mat_entry; assumption. Qed.

    (** w_hat is determined by the linear equations *)
    Lemma w_hat_iff A w : nonsingular (t - 1) (drop0 A) ->
      (is_w_hat t A w <-> exists B, is_inverse (t - 1) (drop0 A) (entry B) /\
         w = mat_apply (t - 1) (t - 1) (entry B) (map (fun i => A (S i) 0) (seq 0 (t - 1)))).
    Proof.
      intros HN. set (u := map (fun i => A (S i) 0) (seq 0 (t - 1))).
      assert (HU : forall B, is_inverse (t - 1) (drop0 A) (entry B) -> is_w_hat t A (mat_apply (t - 1) (t - 1) (entry B) u)).
      { intros B HB. split; [apply mat_apply_length|]. intros i Hi.
        transitivity (nth i (mat_apply (t - 1) (t - 1) (drop0 A) (mat_apply (t - 1) (t - 1) (entry B) u)) f0).
        { rewrite mat_apply_nth by exact Hi. reflexivity. }
        rewrite (mat_apply_comp HF). rewrite mat_apply_nth by exact Hi.
        transitivity (nth i u f0); [|unfold u; rewrite nth_map_seq by exact Hi; reflexivity].
        etransitivity; [|apply (sumn_delta HF (t - 1) i (fun j => nth j u f0)); exact Hi].
        apply sumn_ext. intros j Hj. f_equal. exact (proj1 HB i j Hi Hj). }
      split.
      - intros [Lw Hw]. destruct (nonsingular_invertible HF _ _ HN) as [B HB].
        assert (HB' : is_inverse (t - 1) (drop0 A) (entry (mk_mat (t - 1) (t - 1) B))).
        { apply (is_inverse_ext (t - 1) _ B); [|exact HB]. intros i j Hi Hj. symmetry. apply mk_mat_entry; assumption. }
        exists (mk_mat (t - 1) (t - 1) B). split; [exact HB'|]. destruct (HU _ HB') as [Lw' Hw'].
        set (w' := mat_apply _ _ _ u) in *. apply (list_ext f0); [lia|]. intros i Hi. rewrite Lw in Hi.
        apply (fsub_eq_0 HF). apply (HN (fun k => fsub (nth k w f0) (nth k w' f0))); [|exact Hi].
        intros k Hk. transitivity (fsub (sumn (t - 1) (fun j => fmul (A (S k) (S j)) (nth j w f0)))
                                        (sumn (t - 1) (fun j => fmul (A (S k) (S j)) (nth j w' f0)))).
        + rewrite <- (sumn_sub HF). apply sumn_ext. intros j Hj. unfold drop0. ring.
        + rewrite Hw, Hw' by exact Hk. ring.
      - intros [B [HB ->]]. apply HU, HB.
    Qed.

    Lemma loop_iff n : forall k M_i vs ws r,
      equivalent_loop t (mk_mat t t (tr M)) n M_i (mk_mat t t (MM t M k)) vs ws r <->
      exists wl, length wl = n /\
        (forall l, l < n -> nonsingular (t - 1) (drop0 (MM t M (k + l))) /\ is_w_hat t (MM t M (k + l)) (nth l wl [])) /\
        r = (match n with O => M_i | S m => mk_mat t t (mi_of (MM t M (k + m))) end,
             vs ++ map (fun l => v_of t (MM t M (k + l))) (seq 0 n), ws ++ wl).
    Proof.
      induction n as [|n IH]; intros k M_i vs ws r.
      - split.
        + intros H. inversion H; subst. exists []. split; [reflexivity|]. split; [lia|]. cbn [seq map]. rewrite !app_nil_r. reflexivity.
        + intros [wl [L [_ ->]]]. destruct wl; [|discriminate]. cbn [seq map]. rewrite !app_nil_r. constructor.
      - assert (EM : times t (mk_mat t t (tr M)) (with_block t (sub_M_hat t (mk_mat t t (MM t M k)))) = mk_mat t t (MM t M (S k)))
          by (rewrite sub_M_hat_mk, with_block_mk, times_mk; reflexivity).
        assert (EB : forall B, is_inverse (t - 1) (entry (sub_M_hat t (mk_mat t t (MM t M k)))) (entry B) <-> is_inverse (t - 1) (drop0 (MM t M k)) (entry B)).
        { intros B. rewrite sub_M_hat_mk.
          assert (E : mat_eq (t - 1) (entry (mk_mat (t - 1) (t - 1) (drop0 (MM t M k)))) (drop0 (MM t M k)))
            by (intros i j Hi Hj; apply mk_mat_entry; assumption).
          unfold is_inverse. split; intros [H1 H2]; split; intros i j Hi Hj.
          - rewrite <- (H1 i j Hi Hj). apply mat_mul_ext; intros l Hl; [symmetry; apply E; assumption|reflexivity].
          - rewrite <- (H2 i j Hi Hj). apply mat_mul_ext; intros l Hl; [reflexivity|symmetry; apply E; assumption].
          - rewrite <- (H1 i j Hi Hj). apply mat_mul_ext; intros l Hl; [apply E; assumption|reflexivity].
          - rewrite <- (H2 i j Hi Hj). apply mat_mul_ext; intros l Hl; [reflexivity|apply E; assumption]. }
        split.
        + intros H. inversion H as [|n' M_i' M_mul' vs' ws' B r' M_hat HB w_hat HR]; subst. unfold M_hat in HB. apply EB in HB.
          unfold M_hat in HR. rewrite EM in HR. apply IH in HR. destruct HR as [wl [L [Hl ->]]].
          assert (HN : nonsingular (t - 1) (drop0 (MM t M k))) by (apply (invertible_nonsingular HF); eexists; exact HB).
          exists (w_hat :: wl). split; [cbn [length]; lia|]. split.
          * intros [|l] Hll.
            -- rewrite Nat.add_0_r. split; [exact HN|]. cbn [nth]. apply w_hat_iff; [exact HN|]. exists B. split; [exact HB|].
               unfold w_hat. rewrite sub_w_mk. reflexivity.
            -- replace (k + S l) with (S k + l) by lia. cbn [nth]. apply Hl. lia.
          * f_equal; [f_equal|].
            -- destruct n as [|n]; [rewrite Nat.add_0_r, sub_M_hat_mk, with_block_mk; reflexivity|]. do 3 f_equal. lia.
            -- rewrite sub_v_mk, <- app_assoc. f_equal. cbn [seq map]. rewrite Nat.add_0_r. cbn [app]. f_equal.
               rewrite <- seq_shift, map_map. apply map_seq_ext. intros i Hi. f_equal. f_equal. lia.
            -- rewrite <- app_assoc. reflexivity.
        + intros [wl [L [Hl ->]]]. destruct wl as [|w wl]; [discriminate|].
          destruct (Hl 0 ltac:(lia)) as [HN Hw]. rewrite Nat.add_0_r in HN, Hw. cbn [nth] in Hw.
          destruct (proj1 (w_hat_iff _ _ HN) Hw) as [B [HB Ew]].
          apply (loop_next t _ n M_i (mk_mat t t (MM t M k)) vs ws B); [apply EB; exact HB|].
          rewrite EM. apply IH. exists wl. split; [cbn [length] in L; lia|]. split.
          * intros l Hll. specialize (Hl (S l) ltac:(lia)). replace (k + S l) with (S k + l) in Hl by lia. exact Hl.
          * f_equal; [f_equal|].
            -- destruct n as [|n]; [rewrite Nat.add_0_r, sub_M_hat_mk, with_block_mk; reflexivity|]. do 3 f_equal. lia.
            -- rewrite sub_v_mk, <- app_assoc. f_equal. cbn [seq map]. rewrite Nat.add_0_r. cbn [app]. f_equal.
               rewrite <- seq_shift, map_map. apply map_seq_ext. intros i Hi. f_equal. f_equal. lia.
            -- rewrite <- app_assoc. cbn [app]. do 2 f_equal. rewrite Ew, sub_w_mk. reflexivity.
    Qed.
  End Mats.

  Lemma nonsingular_mul n (A B : @mat F) : nonsingular n A -> nonsingular n B -> nonsingular n (mat_mul n A B).
  Proof.
    intros HA HB x Hx. apply HB. intros i Hi. apply (HA (fun i => sumn n (fun j => fmul (B i j) (x j)))); [|exact Hi].
    intros k Hk. etransitivity; [|exact (Hx k Hk)]. unfold mat_mul.
    transitivity (sumn n (fun i => sumn n (fun j => fmul (fmul (A k i) (B i j)) (x j)))).
    - apply sumn_ext. intros l Hl. rewrite <- (sumn_mul_l HF). apply sumn_ext. intros j Hj. ring.
    - rewrite (sumn_swap HF). apply sumn_ext. intros j Hj. rewrite (sumn_mul_r HF). reflexivity.
  Qed.
  Lemma nonsingular_pow n (A : @mat F) k : nonsingular n A -> nonsingular n (mat_pow n A k).
  Proof.
    intros HA. induction k as [|k IH]; [|apply nonsingular_mul; assumption].
    intros x Hx j Hj. rewrite <- (Hx j Hj). symmetry. apply (sumn_delta HF n j x Hj).
  Qed.

  Lemma transposed_mk t (mds : list (list F)) : transposed t mds = mk_mat t t (tr (entry mds)).
  Proof. reflexivity. Qed.

  (** ** the matrices *)
  Theorem calc_matrices_iff dbg t d rf rp (mds rc : list (list F)) P :
    ps_new dbg t d rf rp mds rc = Ok P -> (N.of_nat rf + N.of_nat rp < usize_mod)%N -> dims t t mds ->
    forall M_i vs ws m, calc_equivalent_matrices t rp mds M_i vs ws m <->
      M_i = transposed t (ps_m_i P) /\ vs = ps_v P /\ ws = ps_w_hat P /\ m = entry mds 0 0.
  Proof.
    intros HN Hov Hd M_i vs ws m. pose proof (ps_new_wide _ _ _ _ _ _ _ _ HN) as [Ht Hp].
    destruct (ps_new_ok _ _ _ _ _ _ _ _ HN Hov) as [_ [_ [_ [m_i [v [w [opt [EM [_ ->]]]]]]]]]. cbn [ps_m_i ps_v ps_w_hat].
    destruct (ps_eqmat_ok HF _ _ _ _ _ _ _ Hd Ht Hp EM) as [HL [[Lv [Lw HA]] Emi]].
    unfold calc_equivalent_matrices. rewrite transposed_mk, mk_mat_entry by lia. unfold tr at 3.
    assert (EZ : mk_mat t t (tr (entry mds)) = mk_mat t t (MM t (entry mds) 0)) by reflexivity.
    rewrite EZ at 2. rewrite (loop_iff t (entry mds) Ht rp 0).
    assert (Ev : v = map (fun l => v_of t (MM t (entry mds) (0 + l))) (seq 0 rp)).
    { apply (list_ext []); [rewrite map_length, seq_length; exact Lv|]. intros i Hi. rewrite Lv in Hi.
      rewrite nth_map_seq by exact Hi. exact (proj1 (HA i Hi)). }
    assert (Ei : transposed t m_i = mk_mat t t (mi_of (MM t (entry mds) (rp - 1)))).
    { rewrite Emi, transposed_mk. apply mk_mat_ext. intros i j Hi Hj. unfold tr. rewrite mk_mat_entry by assumption. reflexivity. }
    assert (NS : forall l, l < rp -> nonsingular (t - 1) (drop0 (MM t (entry mds) l))) by (intros l Hl; apply (HL l Hl); lia).
    split.
    - intros [[wl [L [Hl E]]] ->]. destruct rp as [|rp]; [lia|]. injection E as -> -> ->. cbn [app].
      split; [rewrite Ei; do 3 f_equal; lia|]. split; [symmetry; exact Ev|]. split; [|reflexivity].
      apply (list_ext []); [lia|]. intros l Hl'. rewrite L in Hl'. destruct (Hl l Hl') as [_ Hw]. destruct (HA l Hl') as [_ Hw'].
      cbn [Nat.add] in Hw.
      destruct (proj1 (w_hat_iff t Ht _ _ (NS l Hl')) Hw) as [B [HB ->]]. destruct (proj1 (w_hat_iff t Ht _ _ (NS l Hl')) Hw') as [B' [HB' ->]].
      unfold mat_apply. apply map_seq_ext. intros i Hi. apply sumn_ext. intros j Hj. f_equal.
      exact (is_inverse_unique HF _ _ _ _ HB HB' i j Hi Hj).
    - intros [-> [-> [-> ->]]]. split; [|reflexivity]. exists w. split; [exact Lw|]. split.
      + intros l Hl. split; [apply NS; exact Hl|apply (HA l Hl)].
      + destruct rp as [|rp]; [lia|]. cbn [app]. rewrite Ei. f_equal. f_equal; [|exact Ev]. do 3 f_equal. lia.
  Qed.

  Theorem calc_matrices_defined t rp (mds : list (list F)) : 2 <= t -> 1 <= rp ->
    ((exists M_i vs ws m, calc_equivalent_matrices t rp mds M_i vs ws m) <-> invertible (t - 1) (drop0 (entry mds))).
  Proof.
    intros Ht Hp. unfold calc_equivalent_matrices. rewrite transposed_mk.
    assert (EZ : mk_mat t t (tr (entry mds)) = mk_mat t t (MM t (entry mds) 0)) by reflexivity. split.
    - intros [M_i [vs [ws [m [H _]]]]]. rewrite EZ in H at 2. apply (loop_iff t (entry mds) Ht rp 0) in H.
      destruct H as [wl [_ [H _]]]. destruct (H 0 ltac:(lia)) as [HN _]. apply (nonsingular_invertible HF).
      apply (nonsingular_tr HF) in HN. exact HN.
    - intros HI. apply (invertible_nonsingular HF) in HI.
      assert (NS : forall l, nonsingular (t - 1) (drop0 (MM t (entry mds) l))).
      { intros l. apply (nonsingular_ext (t - 1) _ _ (mat_eq_sym _ _ _ (drop0_MM HF t (entry mds) l Ht))).
        apply (nonsingular_tr HF), nonsingular_pow, HI. }
      assert (HW : forall l, exists w, is_w_hat t (MM t (entry mds) l) w).
      { intros l. destruct (nonsingular_invertible HF _ _ (NS l)) as [B HB]. eexists. apply (proj2 (w_hat_iff t Ht _ _ (NS l))).
        exists (mk_mat (t - 1) (t - 1) B). split; [|reflexivity].
        apply (is_inverse_ext (t - 1) _ B); [|exact HB]. intros i j Hi Hj. symmetry. apply mk_mat_entry; assumption. }
      assert (HS : exists wl, length wl = rp /\ forall l, l < rp -> is_w_hat t (MM t (entry mds) l) (nth l wl [])).
      { clear Hp. induction rp as [|rp [wl [L Hl]]]; [exists []; split; [reflexivity|lia]|]. destruct (HW rp) as [w Hw].
        exists (wl ++ [w]). split; [rewrite app_length; cbn; lia|]. intros l Hll. destruct (Nat.eq_dec l rp) as [->|].
        - rewrite app_nth2, L, Nat.sub_diag by lia. exact Hw.
        - rewrite app_nth1 by lia. apply Hl. lia. }
      destruct HS as [wl [L Hl]]. do 4 eexists. split; [|reflexivity]. rewrite EZ at 2. apply (loop_iff t (entry mds) Ht rp 0).
      exists wl. split; [exact L|]. split; [intros l Hll; split; [apply NS|apply Hl, Hll]|]. reflexivity.
  Qed.

  (** ** the constants *)
  Lemma in_rows_concat t (rc : list (list F)) : 1 <= t -> (forall v, In v rc -> length v = t) -> in_rows t (concat rc) = rc.
  Proof.
    intros Ht Hr. destruct (concat_nth t rc Hr) as [CL CN]. unfold in_rows. rewrite CL.
    replace ((length rc * t + t - 1) / t) with (length rc).
    2:{ symmetry. replace (length rc * t + t - 1) with ((t - 1) + length rc * t) by lia. rewrite Nat.div_add by lia. rewrite Nat.div_small by lia. reflexivity. }
    apply (list_ext []); [rewrite map_length, seq_length; reflexivity|]. intros r Hl. rewrite map_length, seq_length in Hl.
    rewrite nth_map_seq by exact Hl.
    assert (Lr : length (nth r rc []) = t) by (apply Hr, nth_In, Hl).
    assert (L1 : length (firstn t (skipn (r * t) (concat rc))) = t) by (rewrite firstn_length, skipn_length, CL; nia).
    apply (list_ext f0); [lia|]. intros i Hi. rewrite L1 in Hi. rewrite nth_firstn_lt by exact Hi. rewrite nth_skipn. apply CN; assumption.
  Qed.

  Section Consts.
    Context (t : nat) (Ht : 2 <= t) (mds inv inv' rc : list (list F)) (rfb rp : nat) (Hp : 1 <= rp)
            (HI : is_inverse t (entry mds) (entry inv)) (HI' : is_inverse t (entry (transposed t mds)) (entry inv'))
            (Hr : forall r, r < rfb + rp -> length (nth r rc []) = t) (HL : rfb + rp <= length rc).
    Let td := tmpd t (entry inv) rc rfb rp.
    Let oc := optc t (entry inv) rc rfb rp.

    Lemma inv_row (v : list F) :
      map (fun j => sumn t (fun k => fmul (nth k v f0) (entry inv' k j))) (seq 0 t) = mat_apply t t (entry inv) v.
    Proof.
      unfold mat_apply. apply map_seq_ext. intros j Hj. apply sumn_ext. intros k Hk.
      assert (E : entry inv' k j = entry inv j k).
      { apply (is_inverse_unique HF t (entry (transposed t mds)) _ (tr (entry inv)) HI'); [|assumption|assumption].
        destruct HI as [H1 H2]. split; intros a b Ha Hb.
        - transitivity (mat_id b a); [rewrite <- (H2 b a Hb Ha)|unfold mat_id; rewrite Nat.eqb_sym; reflexivity].
          unfold mat_mul. apply sumn_ext. intros l Hl. rewrite transposed_mk, mk_mat_entry by assumption. unfold tr. ring.
        - transitivity (mat_id b a); [rewrite <- (H1 b a Hb Ha)|unfold mat_id; rewrite Nat.eqb_sym; reflexivity].
          unfold mat_mul. apply sumn_ext. intros l Hl. rewrite transposed_mk, mk_mat_entry by assumption. unfold tr. ring. }
      rewrite E. ring.
    Qed.

    Lemma td_length n : n < rp -> length (td n) = t.
    Proof.
      intros Hn. unfold td. destruct n as [|n]; [cbn [tmpd]; apply Hr; lia|]. cbn [tmpd]. rewrite map_length, seq_length. apply Hr. lia.
    Qed.

    Definition row_after (i r : nat) : list F :=
      if (rfb + i <? r) && (r <? rfb + rp) then oc (r - rfb) :: repeat f0 (t - 1)
      else if r =? rfb + i then td (rp - 1 - i) else nth r rc [].

    Lemma move_loop : for_range_rev rfb (rfb + rp - 1) (move_constants t inv') rc = Ok (map (row_after 0) (seq 0 (length rc))).
    Proof.
      destruct (for_range_rev_inv (fun i s => s = map (row_after (i - rfb)) (seq 0 (length rc))) rfb (rfb + rp - 1)
        (move_constants t inv') rc) as [s [E ->]].
      - lia.
      - apply (list_ext []); [rewrite map_length, seq_length; reflexivity|]. intros r Hl. rewrite nth_map_seq by exact Hl. unfold row_after.
        replace (rfb + (rfb + rp - 1 - rfb)) with (rfb + rp - 1) by lia.
        destruct (Nat.ltb_spec (rfb + rp - 1) r), (Nat.ltb_spec r (rfb + rp)), (Nat.eqb_spec r (rfb + rp - 1)); cbn [andb]; try lia; try reflexivity.
        subst r. replace (rp - 1 - (rfb + rp - 1 - rfb)) with 0 by lia. reflexivity.
      - intros i s Hi ->. set (l := map _ _). assert (Ll : length l = length rc) by (unfold l; rewrite map_length, seq_length; reflexivity).
        assert (Nl : forall r, r < length rc -> nth r l [] = row_after (S i - rfb) r) by (intros r Hrr; unfold l; apply (nth_map_seq _ [] _ _); exact Hrr).
        set (k := i - rfb). assert (Ei : i = rfb + k) by lia.
        unfold move_constants. rewrite (idx_ok []) by lia. cbn [bind].
        assert (E1 : nth (i + 1) l [] = td (rp - 1 - S k)).
        { rewrite Nl by lia. unfold row_after. replace (rfb + (S i - rfb)) with (i + 1) by lia. rewrite Nat.ltb_irrefl, Nat.eqb_refl. cbn [andb]. f_equal. lia. }
        assert (E0 : nth i l [] = nth i rc []).
        { rewrite Nl by lia. unfold row_after. destruct (Nat.ltb_spec (rfb + (S i - rfb)) i), (Nat.eqb_spec i (rfb + (S i - rfb))); try lia. reflexivity. }
        rewrite E1. rewrite td_length by lia. rewrite Nat.eqb_refl. cbn [assert bind].
        rewrite inv_row. rewrite (idx_ok []) by lia. cbn [bind]. rewrite E0. rewrite Hr by lia. rewrite Nat.eqb_refl. cbn [assert bind].
        rewrite upd_ok by lia. cbn [bind]. rewrite upd_ok by (rewrite set_nth_length; lia). eexists. split; [reflexivity|].
        apply (list_ext []); [rewrite !set_nth_length; rewrite ?set_nth_length; rewrite ?map_length, ?seq_length; lia|].
        intros r Hrr. rewrite !set_nth_length in Hrr by (rewrite ?set_nth_length; lia). rewrite Ll in Hrr.
        rewrite !set_nth_nth by (rewrite ?set_nth_length; lia). rewrite (nth_map_seq _ [] _ _) by exact Hrr.
        unfold row_after. fold k. replace (rfb + k) with i by lia. destruct (Nat.eqb_spec r (i + 1)) as [->|N1].
        + destruct (Nat.ltb_spec i (i + 1)), (Nat.ltb_spec (i + 1) (rfb + rp)); try lia. cbn [andb]. f_equal.
          unfold oc, optc. fold td. do 4 f_equal. lia.
        + destruct (Nat.eqb_spec r i) as [->|N2].
          * destruct (Nat.ltb_spec i i); [lia|]. cbn [andb]. unfold td. replace (rp - 1 - k) with (S (rp - 1 - S k)) by lia. cbn [tmpd].
            replace (rfb + rp - 1 - S (rp - 1 - S k)) with i by lia. rewrite Hr by lia. apply map_seq_ext. intros j Hj. f_equal.
            destruct j as [|j]; [reflexivity|]. cbn [nth Nat.eqb]. rewrite nth_skipn. reflexivity.
          * rewrite Nl by exact Hrr. unfold row_after.
            destruct (Nat.ltb_spec i r), (Nat.ltb_spec (rfb + (S i - rfb)) r), (Nat.ltb_spec r (rfb + rp)), (Nat.eqb_spec r (rfb + (S i - rfb)));
              cbn [andb]; try lia; reflexivity.
      - rewrite E, Nat.sub_diag. reflexivity.
    Qed.
  End Consts.

  Theorem calc_constants_iff dbg t d rf rp (mds rc : list (list F)) P :
    ps_new dbg t d rf rp mds rc = Ok P -> (N.of_nat rf + N.of_nat rp < usize_mod)%N -> dims t t mds -> (forall v, In v rc -> length v = t) ->
    forall out, calc_equivalent_constants t rf rp (concat rc) mds out <->
      out = firstn (rf / 2) rc ++ [nth 0 (ps_opt_rc P) []] ++
            map (fun k => nth 0 (nth k (ps_opt_rc P) []) f0 :: repeat f0 (t - 1)) (seq 1 (rp - 1)) ++ skipn (rf / 2 + rp) rc.
  Proof.
    intros HN Hov Hd Hr out. pose proof (ps_new_wide _ _ _ _ _ _ _ _ HN) as [Ht Hp].
    destruct (ps_new_ok _ _ _ _ _ _ _ _ HN Hov) as [_ [_ [He [m_i [v [w [opt [_ [EC ->]]]]]]]]]. cbn [ps_opt_rc].
    destruct (ps_erc_ok HF _ _ _ _ _ _ _ Hd Ht (half_ov _ _ Hov) EC) as [_ [_ [_ [HL [inv [_ [HI [Lo [Ho0 Ho]]]]]]]]].
    pose proof (rf_even rf He) as He2.
    assert (Hr' : forall r, r < rf / 2 + rp -> length (nth r rc []) = t) by (intros r Hrr; apply Hr, nth_In; lia).
    assert (ER : map (row_after t inv rc (rf / 2) rp 0) (seq 0 (length rc)) =
      firstn (rf / 2) rc ++ [nth 0 opt []] ++ map (fun k => nth 0 (nth k opt []) f0 :: repeat f0 (t - 1)) (seq 1 (rp - 1)) ++ skipn (rf / 2 + rp) rc).
    { assert (L1 : length (firstn (rf / 2) rc) = rf / 2) by (rewrite firstn_length; lia).
      apply (list_ext []).
      - rewrite !app_length, !map_length, !seq_length, L1, skipn_length. cbn [length]. lia.
      - intros r Hl. rewrite map_length, seq_length in Hl. rewrite (nth_map_seq _ [] _ _) by exact Hl. unfold row_after. rewrite Nat.add_0_r, Nat.sub_0_r.
        destruct (Nat.ltb_spec (rf / 2) r), (Nat.ltb_spec r (rf / 2 + rp)), (Nat.eqb_spec r (rf / 2)); cbn [andb]; try lia.
        + rewrite !app_assoc. rewrite app_nth1 by (rewrite !app_length, map_length, seq_length, L1; cbn [length]; lia).
          rewrite app_nth2 by (rewrite app_length, L1; cbn [length]; lia). rewrite app_length, L1. cbn [length].
          rewrite (nth_map_d _ _ (r - (rf / 2 + 1)) 0) by (rewrite seq_length; lia). rewrite seq_nth by lia.
          replace (1 + (r - (rf / 2 + 1))) with (r - rf / 2) by lia. rewrite Ho by lia. reflexivity.
        + rewrite !app_assoc. rewrite app_nth2 by (rewrite !app_length, map_length, seq_length, L1; cbn [length]; lia).
          rewrite !app_length, map_length, seq_length, L1. cbn [length]. rewrite nth_skipn. f_equal. lia.
        + subst r. rewrite app_nth2 by lia. rewrite L1, Nat.sub_diag. cbn [app nth]. symmetry. exact Ho0.
        + rewrite app_nth1 by lia. rewrite nth_firstn_lt by lia. reflexivity. }
    rewrite <- ER. unfold calc_equivalent_constants. rewrite in_rows_concat by (assumption || lia).
    replace (rf + rp - 1 - rf / 2) with (rf / 2 + rp - 1) by lia. destruct (Nat.ltb_spec (rf / 2) (rf / 2 + rp - 1)) as [Hlt|Hge].
    - split.
      + intros [inv' [HI' E]]. rewrite (move_loop t Ht mds inv inv' rc (rf / 2) rp Hp HI HI' Hr') in E by lia. injection E as <-. reflexivity.
      + intros ->. exists (transposed t inv).
        assert (HT : is_inverse t (entry (transposed t mds)) (entry (transposed t inv))).
        { destruct HI as [H1 H2]. split; intros a b Ha Hb.
          - transitivity (mat_id b a); [rewrite <- (H2 b a Hb Ha)|unfold mat_id; rewrite Nat.eqb_sym; reflexivity].
            unfold mat_mul. apply sumn_ext. intros l Hl. rewrite !transposed_mk, !mk_mat_entry by assumption. unfold tr. ring.
          - transitivity (mat_id b a); [rewrite <- (H1 b a Hb Ha)|unfold mat_id; rewrite Nat.eqb_sym; reflexivity].
            unfold mat_mul. apply sumn_ext. intros l Hl. rewrite !transposed_mk, !mk_mat_entry by assumption. unfold tr. ring. }
        split; [exact HT|]. apply (move_loop t Ht mds inv _ rc (rf / 2) rp Hp HI HT Hr'). lia.
    - assert (E1 : rp = 1) by lia. clear Lo. subst rp.
      assert (E : map (row_after t inv rc (rf / 2) 1 0) (seq 0 (length rc)) = rc).
      { apply (list_ext []); [rewrite map_length, seq_length; reflexivity|]. intros r Hl. rewrite map_length, seq_length in Hl.
        rewrite (nth_map_seq _ [] _ _) by exact Hl. unfold row_after. rewrite Nat.add_0_r.
        destruct (Nat.ltb_spec (rf / 2) r), (Nat.ltb_spec r (rf / 2 + 1)), (Nat.eqb_spec r (rf / 2)); cbn [andb]; try lia; try reflexivity.
        subst r. cbn [tmpd Nat.sub]. f_equal. lia. }
      rewrite E. split; intros ->; reflexivity.
  Qed.
End Equiv.

(** ** the shipped instances *)
Theorem ps_equivalent_shipped I : In I ps_instances -> forall F (Fo : FOps F), is_prime_field Fo (si_p I) -> forall dbg,
  exists Q, ps_instance_params dbg I = Ok Q /\
  (forall M_i vs ws m, calc_equivalent_matrices (si_t I) (si_rp I) (map (map f_of_Z) (si_mds I)) M_i vs ws m <->
     M_i = transposed (si_t I) (ps_m_i Q) /\ vs = ps_v Q /\ ws = ps_w_hat Q /\ m = entry (map (map f_of_Z) (si_mds I)) 0 0) /\
  (forall out, calc_equivalent_constants (si_t I) (si_rf I) (si_rp I) (map f_of_Z (concat (si_rc I))) (map (map f_of_Z) (si_mds I)) out <->
     out = firstn (si_rf I / 2) (map (map f_of_Z) (si_rc I)) ++ [nth 0 (ps_opt_rc Q) []] ++
           map (fun k => nth 0 (nth k (ps_opt_rc Q) []) f0 :: repeat f0 (si_t I - 1)) (seq 1 (si_rp I - 1)) ++
           skipn (si_rf I / 2 + si_rp I) (map (map f_of_Z) (si_rc I))).
Proof.
  intros HI F Fo HP dbg. destruct (ProofKats.ps_shipped_permutation I HI) as [HC HR]. destruct (HR F Fo HP dbg) as [Q [HQ _]].
  destruct (ProofKats.ps_all I HI) as [P [Hok [Hpr H]]]. destruct (ProofInstances.ps_cert_parts P Hok I H) as [_ [_ [HB [HA _]]]].
  assert (HN := HQ). rewrite (ProofInstances.ps_instance_residues dbg I HC HB) in HN.
  pose proof (prime_field_is_field HP) as HF.
  assert (Hd : dims (si_t I) (si_t I) (map (map (f_of_Z (F := F))) (si_mds I))).
  { destruct (SpecInstances.sc_mds_shape I HC) as [S1 S2]. split; [rewrite map_length; exact S1|]. intros i Hi.
    rewrite (nth_map_d _ _ i []) by lia. rewrite map_length. apply S2, nth_In. lia. }
  pose proof (SpecInstances.ga_overflow _ _ _ _ _ HA) as Hov.
  exists Q. split; [exact HQ|]. split.
  - exact (calc_matrices_iff HF dbg _ _ _ _ _ _ Q HN Hov Hd).
  - rewrite concat_map_map. refine (calc_constants_iff HF dbg _ _ _ _ _ _ Q HN Hov Hd _).
    destruct (SpecInstances.sc_rc_shape I HC) as [_ S2]. intros v Hv. apply in_map_iff in Hv. destruct Hv as [u [<- Hu]]. rewrite map_length. apply S2, Hu.
Qed.
