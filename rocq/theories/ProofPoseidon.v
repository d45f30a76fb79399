(** * Poseidon: reference, factorised matrices, optimised = unoptimised (C13-C16) *)
From Verif Require Import Base Field Spec LinAlg LoopLemmas MatLoops FieldPow Bij ModelUtils ModelPoseidon2 ModelPoseidon
  SpecPoseidon SpecPoseidon2 ProofPoseidon2 ProofMatInverse ProofMatHelpers ProofEquivRC.

Section Ps.
  Context {F : Type} {Fo : FOps F} (HF : is_field Fo).
  Add Ring FringPs : (ff_ring _ HF).

  (** ** S-box *)
  Lemma ps_sbox_p_eq P x :
    ps_sbox_p P x = if (ps_d P =? 3) || (ps_d P =? 5) || (ps_d P =? 7)
                    then Ok (fpow x (ps_d P)) else Panic.
  Proof. unfold ps_sbox_p. apply (sbox_cases HF). Qed.
  Lemma ps_sbox_p_ok P x : sbox_degree (ps_d P) -> ps_sbox_p P x = Ok (fpow x (ps_d P)).
  Proof. intros Hd. rewrite ps_sbox_p_eq. rewrite (proj2 (degree_bool _) Hd). reflexivity. Qed.
  Lemma ps_sbox_ok P x : sbox_degree (ps_d P) -> ps_sbox P x = Ok (map (fun a => fpow a (ps_d P)) x).
  Proof. intros Hd. unfold ps_sbox. apply mapM_ok. intros a _. apply ps_sbox_p_ok. exact Hd. Qed.

  (** ** matmul on square matrices *)
  Lemma ps_matmul_sq dbg t (m : list (list F)) x : dims t t m -> length x = t ->
    ps_matmul dbg x m = Ok (mat_apply t t (entry m) x).
  Proof.
    intros [Hl Hr] Hx. rewrite (ps_matmul_ok HF).
    - rewrite Hl, Hx, Nat.min_id. reflexivity.
    - intros _. lia.
    - intros i Hi. rewrite Hl, Hx, Nat.min_id, Hr by lia. lia.
  Qed.

  Definition ps_wf (P : PoseidonParams F) : Prop :=
    sbox_degree (ps_d P) /\ dims (ps_t P) (ps_t P) (ps_mds P) /\ 1 <= ps_t P.

  Lemma ps_full_round_ok dbg P r st : ps_wf P -> length st = ps_t P ->
    ps_t P <= length (nth r (ps_rc P) []) ->
    ps_full_round dbg P r st = Ok (ps_ref_full (ps_t P) (ps_d P) (entry (ps_mds P)) (nth r (ps_rc P) []) st).
  Proof.
    intros [Hd [Hm Ht]] Hs Hr. unfold ps_full_round.
    rewrite (idx_ok []) by (apply (nth_nil_len _ _ (ps_t P)); lia). cbn [bind].
    rewrite ps_sbox_ok by exact Hd. cbn [bind].
    rewrite (ps_matmul_sq dbg (ps_t P)); [|exact Hm|rewrite map_length, add_rc_length; lia].
    f_equal. unfold ps_ref_full. f_equal. rewrite (add_rc_ok _ _ (ps_t P)) by assumption. rewrite map_map. reflexivity.
  Qed.

  Lemma ps_partial_round_ok dbg P r st : ps_wf P -> length st = ps_t P ->
    ps_t P <= length (nth r (ps_rc P) []) ->
    ps_partial_round dbg P r st = Ok (ps_ref_partial (ps_t P) (ps_d P) (entry (ps_mds P)) (nth r (ps_rc P) []) st).
  Proof.
    intros [Hd [Hm Ht]] Hs Hr. unfold ps_partial_round.
    rewrite (idx_ok []) by (apply (nth_nil_len _ _ (ps_t P)); lia). cbn [bind].
    rewrite (add_rc_ok _ _ (ps_t P)) by assumption.
    rewrite (idx_ok f0) by (rewrite map_length, seq_length; lia). cbn [bind].
    rewrite ps_sbox_p_ok by exact Hd. cbn [bind]. rewrite upd_ok by (rewrite map_length, seq_length; lia). cbn [bind].
    rewrite (ps_matmul_sq dbg (ps_t P)); [|exact Hm|rewrite set_nth_length; rewrite map_length, seq_length; lia].
    f_equal. unfold ps_ref_partial. f_equal. apply (list_ext f0).
    - rewrite set_nth_length; rewrite !map_length, !seq_length; lia.
    - intros i Hi. rewrite set_nth_length, map_length, seq_length in Hi by (rewrite map_length, seq_length; lia).
      rewrite set_nth_nth by (rewrite map_length, seq_length; lia). rewrite !nth_map_seq by lia. cbv zeta.
      destruct (Nat.eqb_spec i 0) as [->|]; reflexivity.
  Qed.

  Lemma ps_full_rounds dbg P lo hi st : ps_wf P -> length st = ps_t P -> lo <= hi ->
    (forall r, lo <= r < hi -> ps_t P <= length (nth r (ps_rc P) [])) ->
    for_range lo hi (ps_full_round dbg P) st =
      Ok (fold_left (fun s r => ps_ref_full (ps_t P) (ps_d P) (entry (ps_mds P)) (nth r (ps_rc P) []) s) (seq lo (hi - lo)) st) /\
    length (fold_left (fun s r => ps_ref_full (ps_t P) (ps_d P) (entry (ps_mds P)) (nth r (ps_rc P) []) s) (seq lo (hi - lo)) st) = ps_t P.
  Proof.
    intros HW Hs Hlo Hr.
    apply (for_range_fold (fun s r => ps_ref_full (ps_t P) (ps_d P) (entry (ps_mds P)) (nth r (ps_rc P) []) s) (fun s => length s = ps_t P)); [exact Hs|].
    intros i s Hi Hl. split; [apply ps_full_round_ok; auto|apply mat_apply_length].
  Qed.
  Lemma ps_partial_rounds dbg P lo hi st : ps_wf P -> length st = ps_t P -> lo <= hi ->
    (forall r, lo <= r < hi -> ps_t P <= length (nth r (ps_rc P) [])) ->
    for_range lo hi (ps_partial_round dbg P) st =
      Ok (fold_left (fun s r => ps_ref_partial (ps_t P) (ps_d P) (entry (ps_mds P)) (nth r (ps_rc P) []) s) (seq lo (hi - lo)) st) /\
    length (fold_left (fun s r => ps_ref_partial (ps_t P) (ps_d P) (entry (ps_mds P)) (nth r (ps_rc P) []) s) (seq lo (hi - lo)) st) = ps_t P.
  Proof.
    intros HW Hs Hlo Hr.
    apply (for_range_fold (fun s r => ps_ref_partial (ps_t P) (ps_d P) (entry (ps_mds P)) (nth r (ps_rc P) []) s) (fun s => length s = ps_t P)); [exact Hs|].
    intros i s Hi Hl. split; [apply ps_partial_round_ok; auto|apply mat_apply_length].
  Qed.

  (** ** Constructor: fields *)
  Lemma ps_new_ok dbg t d rf rp (mds rc : list (list F)) P :
    ps_new dbg t d rf rp mds rc = Ok P -> (N.of_nat rf + N.of_nat rp < usize_mod)%N ->
    sbox_degree d /\ length mds = t /\ rf mod 2 = 0 /\
    exists m_i v w_hat opt,
      ps_equivalent_matrices dbg mds t rp = Ok (m_i, v, w_hat) /\
      ps_equivalent_round_constants dbg rc mds (rf / 2) rp = Ok opt /\
      P = {| ps_t := t; ps_d := d; ps_rounds_f_beginning := rf / 2; ps_rounds_p := rp;
             ps_rounds_f_end := rf / 2; ps_rounds := rf + rp; ps_mds := mds; ps_rc := rc;
             ps_opt_rc := opt; ps_w_hat := w_hat; ps_v := v; ps_m_i := m_i |}.
  Proof.
    intros H Hov. unfold ps_new in H. inv_ok H. inv_ok H. inv_ok H.
    rewrite uadd_ok in H by exact Hov. cbn [bind] in H. inv_ok H. destruct a2 as [[m_i v] w_hat]. inv_ok H.
    injection H as <-. destruct a, a0, a1. apply assert_ok in E. apply assert_ok in E0. apply assert_ok in E1.
    split; [apply degree_bool; exact E|]. split; [apply Nat.eqb_eq; exact E0|]. split; [apply Nat.eqb_eq; exact E1|].
    exists m_i, v, w_hat, a2. auto.
  Qed.

  Lemma rf_even rf : rf mod 2 = 0 -> rf / 2 + rf / 2 = rf.
  Proof. intros H. pose proof (Nat.div_mod rf 2 ltac:(lia)). lia. Qed.

  Definition ps_rows_ok (t rf rp : nat) (rc : list (list F)) : Prop :=
    forall r, r < rf + rp -> t <= length (nth r rc []).

  Lemma ps_not_opt_ref_P dbg P rf rp x : ps_wf P -> length x = ps_t P -> rf mod 2 = 0 ->
    (N.of_nat rf + N.of_nat rp < usize_mod)%N ->
    ps_rounds_f_beginning P = rf / 2 -> ps_rounds_p P = rp -> ps_rounds P = rf + rp ->
    ps_rows_ok (ps_t P) rf rp (ps_rc P) ->
    ps_permutation_not_opt dbg P x = Ok (ps_ref (ps_t P) (ps_d P) rf rp (entry (ps_mds P)) (ps_rc P) x).
  Proof.
    intros HW Hx He Hov E1 E2 E3 HR. pose proof (rf_even rf He) as He2. unfold ps_permutation_not_opt.
    rewrite Hx, Nat.eqb_refl. cbn [assert bind]. rewrite E1, E2, E3.
    destruct (ps_full_rounds dbg P 0 (rf / 2) x HW Hx ltac:(lia)) as [A1 B1].
    { intros r Hr. apply HR. lia. }
    rewrite A1. cbn [bind]. rewrite uadd_ok by lia. cbn [bind].
    edestruct (ps_partial_rounds dbg P (rf / 2) (rf / 2 + rp)) as [A2 B2].
    { exact HW. } { exact B1. } { lia. } { intros r Hr. apply HR. lia. }
    rewrite A2. cbn [bind].
    edestruct (ps_full_rounds dbg P (rf / 2 + rp) (rf + rp)) as [A3 B3].
    { exact HW. } { exact B2. } { lia. } { intros r Hr. apply HR. lia. }
    rewrite A3. f_equal. unfold ps_ref. rewrite Nat.sub_0_r.
    replace (rf / 2 + rp - rf / 2) with rp by lia. replace (rf + rp - (rf / 2 + rp)) with (rf / 2) by lia. reflexivity.
  Qed.

  (** ** equivalent_matrices *)
  Section Mats.
    Context (t : nat) (M : @mat F) (Ht : 2 <= t).

    Definition tr (A : @mat F) : @mat F := fun i j => A j i.
    Definition mi_of (A : @mat F) : @mat F := fun i j =>
      if (i =? 0) && (j =? 0) then f1 else if (i =? 0) || (j =? 0) then f0 else A i j.
    Fixpoint MM (k : nat) : @mat F :=
      match k with O => tr M | S k' => mat_mul t (tr M) (mi_of (MM k')) end.

    Lemma MM_00 k : MM k 0 0 = M 0 0.
    Proof.
      destruct k as [|k]; [reflexivity|]. cbn [MM]. unfold mat_mul.
      rewrite (sumn_single HF t 0); [unfold mi_of, tr; cbn; ring|lia|].
      intros i Hi Hne. unfold mi_of. destruct (Nat.eqb_spec i 0); [contradiction|]. cbn. ring.
    Qed.

    (** the split-off blocks *)
    Lemma ps_split_ok A : ps_split t (mk_mat t t A) =
      Ok (mk_mat (t - 1) (t - 1) (drop0 A), map (fun i => A (S i) 0) (seq 0 (t - 1)), map (fun i => A 0 (S i)) (seq 0 (t - 1))).
    Proof.
      unfold ps_split. destruct (Nat.leb_spec 1 t); [|lia]. cbn [assert bind].
      rewrite (idx_ok []) by (rewrite mk_mat_length; lia). cbn [bind]. rewrite mk_mat_row by lia.
      rewrite map_length, seq_length, Nat.leb_refl. cbn [assert bind].
      rewrite zero_mat.
      destruct (for_range_inv (fun k st => st = (mk_mat (t-1) (t-1) (fun i j => if S i <? k then A (S i) (S j) else f0),
                                                 map (fun i => if S i <? k then A (S i) 0 else f0) (seq 0 (t-1))))
        1 t (fun row '(m_hat, w) =>
          m_hat <- for_range 1 t (fun col m_hat => x <- idx2 (mk_mat t t A) row col ;; upd2 m_hat (row - 1) (col - 1) x) m_hat ;;
          x <- idx2 (mk_mat t t A) row 0 ;; w <- upd w (row - 1) x ;; Ok (m_hat, w))
        (mk_mat (t - 1) (t - 1) (fun _ _ => f0), repeat f0 (t - 1))) as [s [E ->]].
      - lia.
      - f_equal. rewrite seq_repeat_f0. apply map_seq_ext. reflexivity.
      - intros row s Hr ->.
        destruct (for_range_inv (fun k m => m = mk_mat (t-1) (t-1) (fun i j => if (S i <? row) || ((S i =? row) && (S j <? k)) then A (S i) (S j) else f0))
          1 t (fun col m_hat => x <- idx2 (mk_mat t t A) row col ;; upd2 m_hat (row - 1) (col - 1) x)
          (mk_mat (t-1) (t-1) (fun i j => if S i <? row then A (S i) (S j) else f0))) as [s [E ->]].
        + lia.
        + apply mk_mat_ext. intros i j Hi Hj. change (S j <? 1) with (j <? 0). cbn. rewrite andb_false_r, orb_false_r. reflexivity.
        + intros col s Hc ->. rewrite idx2_mk by lia. cbn [bind]. rewrite upd2_mk by lia. eexists. split; [reflexivity|].
          apply mk_mat_ext. intros i j Hi Hj. unfold fupd.
          destruct (Nat.eqb_spec i (row - 1)), (Nat.eqb_spec j (col - 1)), (Nat.ltb_spec (S i) row), (Nat.eqb_spec (S i) row),
            (Nat.ltb_spec (S j) col), (Nat.ltb_spec (S j) (S col)); cbn [andb orb]; try lia; try reflexivity.
          subst. f_equal; lia.
        + rewrite E. cbn [bind]. rewrite idx2_mk by lia. cbn [bind].
          rewrite upd_ok by (rewrite map_length, seq_length; lia). cbn [bind]. eexists. split; [reflexivity|]. f_equal.
          * apply mk_mat_ext. intros i j Hi Hj.
            destruct (Nat.ltb_spec (S i) row), (Nat.eqb_spec (S i) row), (Nat.ltb_spec (S j) t), (Nat.ltb_spec (S i) (S row)); cbn [andb orb]; try lia; reflexivity.
          * apply (list_ext f0).
            -- rewrite set_nth_length; rewrite !map_length, !seq_length; lia.
            -- intros i Hi. rewrite set_nth_length, map_length, seq_length in Hi by (rewrite map_length, seq_length; lia).
               rewrite set_nth_nth by (rewrite map_length, seq_length; lia). rewrite !nth_map_seq by lia.
               destruct (Nat.eqb_spec i (row - 1)), (Nat.ltb_spec (S i) row), (Nat.ltb_spec (S i) (S row)); try lia; try reflexivity.
               subst. f_equal; lia.
      - rewrite E. cbn [bind]. f_equal. f_equal; [f_equal|].
        + apply mk_mat_ext. intros i j Hi Hj. destruct (Nat.ltb_spec (S i) t); [reflexivity|lia].
        + apply map_seq_ext. intros i Hi. destruct (Nat.ltb_spec (S i) t); [reflexivity|lia].
        + destruct t as [|t']; [lia|]. cbn [seq map skipn Nat.sub]. rewrite Nat.sub_0_r.
          rewrite firstn_all2 by (rewrite map_length, seq_length; lia). rewrite <- seq_shift, map_map. reflexivity.
    Qed.

    Lemma ps_next_m_i_ok A : ps_next_m_i t (mk_mat t t A) = Ok (mk_mat t t (mi_of A)).
    Proof.
      unfold ps_next_m_i. rewrite upd2_mk by lia. cbn [bind].
      destruct (for_range_inv (fun k m => m = mk_mat t t (fun i j =>
          if (i =? 0) && (j =? 0) then f1 else if ((i =? 0) && (j <? k)) || ((j =? 0) && (i <? k)) then f0 else A i j))
        1 t (fun i m_i => m_i <- upd2 m_i 0 i f0 ;; upd2 m_i i 0 f0) (mk_mat t t (fupd A 0 0 f1))) as [s [E ->]].
      - lia.
      - apply mk_mat_ext. intros i j Hi Hj. unfold fupd.
        destruct (Nat.eqb_spec i 0), (Nat.eqb_spec j 0), (Nat.ltb_spec j 1), (Nat.ltb_spec i 1); cbn [andb orb]; try lia; reflexivity.
      - intros k s Hk ->. rewrite upd2_mk by lia. cbn [bind]. rewrite upd2_mk by lia. eexists. split; [reflexivity|].
        apply mk_mat_ext. intros i j Hi Hj. unfold fupd.
        destruct (Nat.eqb_spec i 0), (Nat.eqb_spec j 0), (Nat.ltb_spec j k), (Nat.ltb_spec i k), (Nat.eqb_spec i k), (Nat.eqb_spec j k),
          (Nat.ltb_spec j (S k)), (Nat.ltb_spec i (S k)); cbn [andb orb]; try lia; reflexivity.
      - rewrite E. f_equal. apply mk_mat_ext. intros i j Hi Hj. unfold mi_of.
        destruct (Nat.eqb_spec i 0), (Nat.eqb_spec j 0), (Nat.ltb_spec j t), (Nat.ltb_spec i t); cbn [andb orb]; try lia; reflexivity.
    Qed.

    (** [W k w]: w = m_hat_k^-1 * w_k *)
    Definition is_w_hat (A : @mat F) (w : list F) : Prop :=
      length w = t - 1 /\ forall i, i < t - 1 -> sumn (t - 1) (fun j => fmul (A (S i) (S j)) (nth j w f0)) = A (S i) 0.

    Definition v_of (A : @mat F) : list F := map (fun i => A 0 (S i)) (seq 0 (t - 1)).

    Lemma eqmat_step dbg A mi v wh :
      (leading_blocks (t - 1) (drop0 A) /\ exists w,
         ps_eqmat_body dbg t (mk_mat t t (tr M)) (mi, mk_mat t t A, v, wh) =
           Ok (mk_mat t t (mi_of A), mk_mat t t (mat_mul t (tr M) (mi_of A)), v ++ [v_of A], wh ++ [w]) /\ is_w_hat A w)
      \/ (~ leading_blocks (t - 1) (drop0 A) /\ ps_eqmat_body dbg t (mk_mat t t (tr M)) (mi, mk_mat t t A, v, wh) = Panic).
    Proof.
      unfold ps_eqmat_body. rewrite ps_split_ok. cbn [bind].
      destruct (mat_inverse_spec HF dbg (t - 1) (mk_mat (t - 1) (t - 1) (drop0 A)) ltac:(lia) (mk_mat_dims _ _ _)) as [[HL [B [E HI]]]|[HN E]].
      - left. split.
        { intros k Hk. apply (nonsingular_ext k (entry (mk_mat (t - 1) (t - 1) (drop0 A)))); [|apply HL; exact Hk].
          intros i j Hi Hj. apply mk_mat_entry; lia. }
        rewrite E. cbn [bind]. set (w := map (fun i => A (S i) 0) (seq 0 (t - 1))).
        assert (Hw : length w = t - 1) by (unfold w; rewrite map_length, seq_length; reflexivity).
        rewrite (mat_vec_mul_spec HF dbg (t - 1) (t - 1)); [|apply mk_mat_dims|exact Hw|reflexivity]. cbn [bind].
        rewrite ps_next_m_i_ok. cbn [bind].
        rewrite (mat_mat_mul_ok _ _ t); [|apply mk_mat_length| |].
        2:{ intros i Hi. rewrite mk_mat_length, mk_mat_row, map_length, seq_length by exact Hi. lia. }
        2:{ rewrite mk_mat_length. intros i Hi. rewrite mk_mat_row, map_length, seq_length by exact Hi. lia. }
        cbn [bind]. eexists. split.
        + rewrite mk_mat_length. do 4 f_equal. apply mk_mat_ext. intros i j Hi Hj. apply mat_mul_ext; intros k Hk.
          * apply mk_mat_entry; assumption.
          * apply mk_mat_entry; assumption.
        + split; [apply mat_apply_length|]. intros i Hi.
          transitivity (nth i (mat_apply (t - 1) (t - 1) (drop0 A) (mat_apply (t - 1) (t - 1) (entry (mk_mat (t - 1) (t - 1) B)) w)) f0).
          { rewrite mat_apply_nth by exact Hi. reflexivity. }
          rewrite (mat_apply_comp HF). rewrite mat_apply_nth by exact Hi.
          transitivity (nth i w f0); [|unfold w; rewrite nth_map_seq by exact Hi; reflexivity].
          etransitivity; [|apply (sumn_delta HF (t - 1) i (fun j => nth j w f0)); exact Hi].
          apply sumn_ext. intros j Hj. f_equal. etransitivity; [|exact (proj1 HI i j Hi Hj)].
          apply mat_mul_ext; intros k Hk; [symmetry; apply mk_mat_entry; assumption|apply mk_mat_entry; assumption].
      - right. split.
        { intros C. apply HN. intros k Hk. apply (nonsingular_ext k (drop0 A)); [|apply C; exact Hk].
          intros i j Hi Hj. symmetry. apply mk_mat_entry; lia. }
        rewrite E. reflexivity.
    Qed.

    Definition mats_at (k : nat) (v wh : list (list F)) : Prop :=
      length v = k /\ length wh = k /\
      forall l, l < k -> nth l v [] = v_of (MM l) /\ is_w_hat (MM l) (nth l wh []).

    Lemma eqmat_loop dbg rp :
      ((forall k, k < rp -> leading_blocks (t - 1) (drop0 (MM k))) /\ exists mi v wh,
        for_range 0 rp (fun _ => ps_eqmat_body dbg t (mk_mat t t (tr M))) (repeat (repeat f0 t) t, mk_mat t t (tr M), [], []) =
          Ok (mi, mk_mat t t (MM rp), v, wh) /\ mats_at rp v wh /\ (1 <= rp -> mi = mk_mat t t (mi_of (MM (rp - 1)))) /\ dims t t mi)
      \/ (~ (forall k, k < rp -> leading_blocks (t - 1) (drop0 (MM k))) /\
        for_range 0 rp (fun _ => ps_eqmat_body dbg t (mk_mat t t (tr M))) (repeat (repeat f0 t) t, mk_mat t t (tr M), [], []) = Panic).
    Proof.
      induction rp as [|rp IH].
      - left. split; [intros; lia|]. exists (repeat (repeat f0 t) t), [], []. split; [|split; [|split]].
        + rewrite for_range_empty by lia. reflexivity.
        + split; [reflexivity|]. split; [reflexivity|]. intros; lia.
        + lia.
        + rewrite zero_mat. apply mk_mat_dims.
      - destruct IH as [[HL [mi [v [wh [E [[Hv [Hw HA]] _]]]]]]|[HN E]].
        + rewrite for_range_last by lia. rewrite E. cbn [bind].
          destruct (eqmat_step dbg (MM rp) mi v wh) as [[HS [w [E' Hw']]]|[HS E']].
          * left. split; [intros k Hk; destruct (Nat.eq_dec k rp) as [->|]; [exact HS|apply HL; lia]|].
            eexists. eexists. eexists. split; [exact E'|]. split; [|split].
            -- split; [rewrite app_length; simpl; lia|]. split; [rewrite app_length; simpl; lia|].
               intros l Hl. destruct (Nat.eq_dec l rp) as [->|].
               ++ rewrite !app_nth2 by lia. rewrite Hv, Hw, Nat.sub_diag. split; [reflexivity|exact Hw'].
               ++ rewrite !app_nth1 by lia. apply HA. lia.
            -- intros _. replace (S rp - 1) with rp by lia. reflexivity.
            -- apply mk_mat_dims.
          * right. split; [intros C; apply HS, C; lia|exact E'].
        + right. split; [intros C; apply HN; intros k Hk; apply C; lia|]. rewrite for_range_last by lia. rewrite E. reflexivity.
    Qed.

    (** ** algebra of the factorisation *)
    Definition Cm (k : nat) (w : list F) : @mat F := fun i j =>
      if i =? 0 then (if j =? 0 then M 0 0 else nth (j - 1) w f0)
      else if j =? 0 then MM k 0 i else mat_id i j.
    Definition Dm (k : nat) : @mat F := tr (mi_of (MM k)).

    Lemma factor k w : is_w_hat (MM k) w -> mat_eq t (mat_mul t (Cm k w) (Dm k)) (tr (MM k)).
    Proof.
      intros [Hw HW] i j Hi Hj. unfold mat_mul.
      assert (ES : t = S (t - 1)) by lia. rewrite ES, (sumn_first HF).
      destruct j as [|j].
      - (* column 0 of D is e0 *)
        rewrite (sumn_zero HF).
        2:{ intros k0 Hk0. unfold Dm, tr, mi_of. cbn. ring. }
        unfold Dm, tr, mi_of, Cm. cbn [Nat.eqb andb].
        destruct (Nat.eqb_spec i 0) as [->|N]; [rewrite MM_00; ring|ring].
      - destruct i as [|i].
        + transitivity (sumn (t - 1) (fun l => fmul (MM k (S j) (S l)) (nth l w f0))).
          * unfold Cm at 1, Dm at 1, tr at 1, mi_of at 1. cbn [Nat.eqb andb orb].
            transitivity (fadd f0 (sumn (t - 1) (fun l => fmul (MM k (S j) (S l)) (nth l w f0)))); [|ring].
            f_equal; [ring|]. apply sumn_ext. intros l Hl. unfold Cm, Dm, tr, mi_of. cbn [Nat.eqb andb orb Nat.sub]. rewrite Nat.sub_0_r. ring.
          * rewrite HW by lia. reflexivity.
        + rewrite (sumn_single HF (t - 1) i); [|lia|].
          * unfold Cm, Dm, tr, mi_of, mat_id. cbn [Nat.eqb andb orb]. rewrite Nat.eqb_refl. ring.
          * intros l Hl Hne. unfold Cm, mat_id. cbn [Nat.eqb]. destruct (Nat.eqb_spec i l); [congruence|ring].
    Qed.

    Lemma next_factor k : mat_eq t (tr (MM (S k))) (mat_mul t (Dm k) M).
    Proof.
      intros i j Hi Hj. cbn [MM]. unfold tr at 1, mat_mul, Dm. apply sumn_ext. intros l Hl. unfold tr. ring.
    Qed.

    (** D fixes element 0 and does not mix it with the others *)
    Lemma D_apply k x : mat_apply t t (Dm k) x = map (fun i => if i =? 0 then nth 0 x f0 else sumn t (fun j => fmul (Dm k i j) (if j =? 0 then f0 else nth j x f0))) (seq 0 t).
    Proof.
      unfold mat_apply. apply map_seq_ext. intros i Hi. destruct (Nat.eqb_spec i 0) as [->|N].
      - rewrite (sumn_single HF t 0); [unfold Dm, tr, mi_of; cbn; ring|lia|].
        intros j Hj Hne. unfold Dm, tr, mi_of. cbn. destruct (Nat.eqb_spec j 0); [contradiction|]. cbn. ring.
      - apply sumn_ext. intros j Hj. destruct (Nat.eqb_spec j 0) as [->|]; [|reflexivity].
        unfold Dm, tr, mi_of. destruct (Nat.eqb_spec i 0); [contradiction|]. cbn. ring.
    Qed.

    (** anything acting on element 0 commutes with D *)
    Lemma D_commute k (g : F -> F) x :
      map (fun i => if i =? 0 then g (nth 0 (mat_apply t t (Dm k) x) f0) else nth i (mat_apply t t (Dm k) x) f0) (seq 0 t) =
      mat_apply t t (Dm k) (map (fun i => if i =? 0 then g (nth 0 x f0) else nth i x f0) (seq 0 t)).
    Proof.
      rewrite !D_apply. apply map_seq_ext. intros i Hi. rewrite !nth_map_seq by lia.
      cbn [Nat.eqb]. destruct (Nat.eqb_spec i 0) as [->|N]; [reflexivity|].
      apply sumn_ext. intros j Hj. rewrite nth_map_seq by exact Hj. destruct (j =? 0); reflexivity.
    Qed.

    Section Run.
      Context (d rp : nat) (wh : list (list F)) (HW : forall l, l < rp -> is_w_hat (MM l) (nth l wh [])) (post : nat -> F).

      (** optimised rounds n of rp *)
      Definition opt_round (s : list F) (k : nat) : list F := post_round t d (Cm (rp - 1 - k) (nth (rp - 1 - k) wh [])) (post k) s.

      Lemma opt_round_D s k : k < rp ->
        opt_round (mat_apply t t (Dm (rp - 1 - k)) s) k =
        (if S k <? rp then mat_apply t t (Dm (rp - 1 - S k)) (post_round t d M (post k) s) else post_round t d M (post k) s).
      Proof.
        intros Hk. unfold opt_round, post_round at 1.
        rewrite (D_commute (rp - 1 - k) (fun a => fadd (fpow a d) (post k))). rewrite (mat_apply_comp HF).
        set (y := map _ (seq 0 t)).
        rewrite (mat_apply_ext t t _ (tr (MM (rp - 1 - k))) y y (factor _ _ (HW (rp - 1 - k) ltac:(lia)))) by reflexivity.
        destruct (Nat.ltb_spec (S k) rp) as [L|L].
        - replace (rp - 1 - k) with (S (rp - 1 - S k)) by lia.
          rewrite (mat_apply_ext t t _ _ y y (next_factor (rp - 1 - S k))) by reflexivity.
          rewrite <- (mat_apply_comp HF). reflexivity.
        - replace (rp - 1 - k) with 0 by lia. reflexivity.
      Qed.

      Lemma opt_run s : 1 <= rp ->
        fold_left opt_round (seq 0 rp) (mat_apply t t (Dm (rp - 1)) s) =
        fold_left (fun s k => post_round t d M (post k) s) (seq 0 rp) s.
      Proof.
        intros Hp.
        assert (G : forall n, n < rp -> fold_left opt_round (seq 0 n) (mat_apply t t (Dm (rp - 1)) s) =
          mat_apply t t (Dm (rp - 1 - n)) (fold_left (fun s k => post_round t d M (post k) s) (seq 0 n) s)).
        { induction n as [|n IH]; intros Hn; [rewrite Nat.sub_0_r; reflexivity|].
          rewrite !seq_S, !fold_left_app. cbn [fold_left]. rewrite IH by lia. rewrite !Nat.add_0_l. rewrite opt_round_D by lia.
          destruct (Nat.ltb_spec (S n) rp); [reflexivity|lia]. }
        assert (ES : seq 0 rp = seq 0 (rp - 1) ++ [rp - 1]).
        { replace rp with (S (rp - 1)) at 1 by lia. rewrite seq_S. reflexivity. }
        rewrite ES, !fold_left_app. cbn [fold_left]. rewrite G by lia. rewrite opt_round_D by lia.
        destruct (Nat.ltb_spec (S (rp - 1)) rp); [lia|reflexivity].
      Qed.
    End Run.
  End Mats.
End Ps.
