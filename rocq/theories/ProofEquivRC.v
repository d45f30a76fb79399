(** * equivalent_round_constants of Poseidon and Poseidon2 (C11, used for C14) *)
From Verif Require Import Base Field Spec LinAlg LoopLemmas MatLoops ModelUtils ModelPoseidon2 ModelPoseidon
  SpecPoseidon ProofMatInverse ProofMatHelpers.

Section EquivRC.
  Context {F : Type} {Fo : FOps F} (HF : is_field Fo).
  Add Ring FringERC : (ff_ring _ HF).

  (** the common loop body *)
  Definition erc_body (dbg : bool) (inv rc : list (list F)) (rfb : nat)
    (i : nat) (st : list (list F) * list F) : res (list (list F) * list F) :=
    let '(opt, tmp) := st in
    inv_cip <- mat_vec_mul dbg inv tmp ;;
    c0 <- idx inv_cip 0 ;;
    opt <- upd opt (i + 1) [c0] ;;
    ix <- uadd dbg rfb i ;;
    tmp <- idx rc ix ;;
    tmp <- for_range 1 (length inv_cip) (fun k tmp =>
        x <- idx tmp k ;; y <- idx inv_cip k ;;
        upd tmp k (fadd x y)) tmp ;;
    Ok (opt, tmp).

  Section Consts.
    Context (t : nat) (Minv : @mat F) (rc : list (list F)) (rfb rp : nat).

    (** [tmpd n]: the value of [tmp] after n iterations *)
    Fixpoint tmpd (n : nat) : list F :=
      match n with
      | O => nth (rfb + rp - 1) rc []
      | S n' => let c := nth (rfb + rp - 1 - S n') rc [] in
                let u := mat_apply t t Minv (tmpd n') in
                map (fun i => fadd (nth i c f0) (if i =? 0 then f0 else nth i u f0)) (seq 0 (length c))
      end.

    Lemma tmpd_length n : length (tmpd n) = length (nth (rfb + rp - 1 - n) rc []).
    Proof.
      destruct n as [|n]; cbn [tmpd].
      - rewrite Nat.sub_0_r. reflexivity.
      - rewrite map_length, seq_length. reflexivity.
    Qed.

    (** the constant added to element 0 after the S-box of partial round k - 1 *)
    Definition optc (k : nat) : F := nth 0 (mat_apply t t Minv (tmpd (rp - 1 - k))) f0.

    Lemma add_loop (c u : list F) : length u <= length c \/ length u <= 1 ->
      for_range 1 (length u) (fun k tmp => x <- idx tmp k ;; y <- idx u k ;; upd tmp k (fadd x y)) c =
      Ok (map (fun i => fadd (nth i c f0) (if i =? 0 then f0 else nth i u f0)) (seq 0 (length c))).
    Proof.
      intros Hl.
      assert (Base : forall l : list F, l = map (fun i => fadd (nth i l f0) (if (i =? 0) || (1 <=? i) then f0 else f0)) (seq 0 (length l))).
      { intros l. rewrite (list_as_map f0 l) at 1. apply map_seq_ext. intros i _.
        replace (if (i =? 0) || (1 <=? i) then f0 else f0) with (f0 : F) by (destruct ((i =? 0) || (1 <=? i)); reflexivity). ring. }
      destruct (le_lt_dec (length u) 1) as [L1|L1].
      - rewrite for_range_empty by exact L1. f_equal. rewrite (Base c) at 1. apply map_seq_ext. intros i Hi. f_equal.
        destruct (Nat.eqb_spec i 0) as [->|N]; [reflexivity|]. rewrite (nth_overflow u) by lia. destruct (_ || _); reflexivity.
      - destruct (for_range_inv (fun k s => s = map (fun i => fadd (nth i c f0) (if (i =? 0) || (k <=? i) then f0 else nth i u f0)) (seq 0 (length c)))
          1 (length u) (fun k tmp => x <- idx tmp k ;; y <- idx u k ;; upd tmp k (fadd x y)) c) as [s [E ->]].
        + lia.
        + rewrite (Base c) at 1. apply map_seq_ext. intros i Hi. f_equal. destruct (Nat.eqb_spec i 0), (Nat.leb_spec 1 i); try lia; reflexivity.
        + intros k s Hk ->. rewrite (idx_ok f0) by (rewrite map_length, seq_length; lia). cbn [bind].
          rewrite (idx_ok f0) by lia. cbn [bind]. rewrite upd_ok by (rewrite map_length, seq_length; lia).
          eexists. split; [reflexivity|]. apply (list_ext f0).
          * rewrite set_nth_length; rewrite !map_length, !seq_length; lia.
          * intros i Hi. rewrite set_nth_length, map_length, seq_length in Hi by (rewrite map_length, seq_length; lia).
            rewrite set_nth_nth by (rewrite map_length, seq_length; lia). rewrite !nth_map_seq by lia.
            destruct (Nat.eqb_spec i k) as [->|N].
            -- destruct (Nat.eqb_spec k 0), (Nat.leb_spec k k), (Nat.leb_spec (S k) k); try lia; cbn [orb]. ring.
            -- destruct (Nat.eqb_spec i 0), (Nat.leb_spec k i), (Nat.leb_spec (S k) i); try lia; reflexivity.
        + rewrite E. f_equal. apply map_seq_ext. intros i Hi. f_equal.
          destruct (Nat.eqb_spec i 0), (Nat.leb_spec (length u) i); cbn [orb]; try reflexivity. rewrite nth_overflow by assumption. reflexivity.
    Qed.

    Context (dbg : bool) (inv : list (list F)) (Hinv : dims t t inv)
            (Hent : forall i j, i < t -> j < t -> entry inv i j = Minv i j) (Ht : 1 <= t)
            (Hov : (N.of_nat rfb + N.of_nat rp < usize_mod)%N).

    Lemma mat_vec_mul_inv x : length x <= t -> (dbg = true -> length x = t) ->
      mat_vec_mul dbg inv x = Ok (mat_apply t t Minv x).
    Proof.
      clear Hov Ht. intros Hx Hd. rewrite (mat_vec_mul_ok HF).
      - rewrite (proj1 Hinv). f_equal. unfold mat_apply. apply map_seq_ext. intros i Hi.
        replace t with (length x + (t - length x)) at 1 by lia. rewrite (sumn_split HF).
        rewrite (sumn_zero HF (t - length x)).
        + etransitivity; [|symmetry; apply (ff_ring _ HF).(Radd_comm)]. 
          etransitivity; [|symmetry; apply (ff_ring _ HF).(Radd_0_l)].
          apply sumn_ext. intros k Hk. rewrite Hent by lia. reflexivity.
        + intros k Hk. rewrite (nth_overflow x) by lia. ring.
      - intros E. rewrite Hd by exact E. apply (proj1 Hinv).
      - intros i Hi. rewrite (proj2 Hinv) by (rewrite (proj1 Hinv) in Hi; exact Hi). exact Hx.
    Qed.

    (** all rows of the partial rounds have length t; the first may be longer, and the last
        may be shorter in release builds *)
    Definition rows_ok : Prop :=
      (forall k, 1 <= k < rp -> length (nth (rfb + k) rc []) <= t /\
                               (dbg = true \/ k < rp - 1 -> length (nth (rfb + k) rc []) = t)) /\
      (2 <= rp -> t <= length (nth rfb rc [])).

    Lemma erc_step i opt : rows_ok -> S i < rp -> i + 1 < length opt ->
      erc_body dbg inv rc rfb i (opt, tmpd (rp - 1 - S i)) =
      Ok (set_nth opt (i + 1) [optc (S i)], tmpd (rp - 1 - i)).
    Proof.
      intros [H1 H2] Hi Ho. unfold erc_body.
      assert (Hlen : length (nth (rfb + i) rc []) >= t).
      { destruct i as [|i]; [rewrite Nat.add_0_r; apply H2; lia|]. destruct (H1 (S i) ltac:(lia)) as [_ H3]. rewrite H3 by lia. lia. }
      destruct (H1 (S i) ltac:(lia)) as [H3 H4].
      rewrite mat_vec_mul_inv.
      2:{ rewrite tmpd_length. replace (rfb + rp - 1 - (rp - 1 - S i)) with (rfb + S i) by lia. exact H3. }
      2:{ intros Hd. rewrite tmpd_length. replace (rfb + rp - 1 - (rp - 1 - S i)) with (rfb + S i) by lia. apply H4. left; exact Hd. }
      cbn [bind]. rewrite (idx_ok f0) by (rewrite mat_apply_length; lia). cbn [bind].
      rewrite upd_ok by exact Ho. cbn [bind].
      rewrite uadd_ok by lia. cbn [bind].
      assert (Hr : rfb + i < length rc).
      { destruct (le_lt_dec (length rc) (rfb + i)) as [L|L]; [|exact L]. rewrite nth_overflow in Hlen by exact L. simpl in Hlen. lia. }
      rewrite (idx_ok []) by exact Hr. cbn [bind].
      rewrite add_loop by (left; rewrite mat_apply_length; lia). cbn [bind].
      unfold optc. f_equal. f_equal.
      replace (rp - 1 - i) with (S (rp - 1 - S i)) by lia. cbn [tmpd].
      replace (rfb + rp - 1 - S (rp - 1 - S i)) with (rfb + i) by lia. reflexivity.
    Qed.

    Lemma erc_loop opt0 : rows_ok -> 1 <= rp -> rp <= length opt0 ->
      exists opt, for_range_rev 0 (rp - 1) (erc_body dbg inv rc rfb) (opt0, nth (rfb + rp - 1) rc []) = Ok (opt, tmpd (rp - 1)) /\
        length opt = length opt0 /\ (forall k, 1 <= k < rp -> nth k opt [] = [optc k]) /\
        (forall k, rp <= k -> nth k opt [] = nth k opt0 []) .
    Proof.
      intros HR Hp Ho.
      destruct (for_range_rev_inv (fun i st => exists opt, st = (opt, tmpd (rp - 1 - i)) /\ length opt = length opt0 /\
          (forall k, i < k < rp -> nth k opt [] = [optc k]) /\ (forall k, rp <= k -> nth k opt [] = nth k opt0 []))
        0 (rp - 1) (erc_body dbg inv rc rfb) (opt0, nth (rfb + rp - 1) rc [])) as [s [E [opt [-> [Hl [Hk Hk']]]]]].
      - lia.
      - exists opt0. split; [|split; [reflexivity|split; [intros; lia|reflexivity]]]. rewrite Nat.sub_diag. reflexivity.
      - intros i s Hi [opt [-> [Hl [Hk Hk']]]].
        rewrite erc_step by (assumption || lia). eexists. split; [reflexivity|]. eexists. split; [reflexivity|].
        split; [rewrite set_nth_length by lia; exact Hl|]. split.
        + intros k Hk2. rewrite set_nth_nth by lia. destruct (Nat.eqb_spec k (i + 1)) as [->|N].
          * rewrite Nat.add_1_r. reflexivity.
          * apply Hk. lia.
        + intros k Hk2. rewrite set_nth_nth by lia. destruct (Nat.eqb_spec k (i + 1)); [lia|]. apply Hk'. exact Hk2.
      - exists opt. rewrite E, Nat.sub_0_r. split; [reflexivity|]. split; [exact Hl|]. split; [|exact Hk']. intros k Hk2. apply Hk. lia.
    Qed.
  End Consts.

  (** lengths forced by a successful run *)
  Lemma erc_loop_rows dbg t inv rc rfb rp opt0 r :
    dims t t inv -> 2 <= t -> (N.of_nat rfb + N.of_nat rp < usize_mod)%N -> 1 <= rp ->
    for_range_rev 0 (rp - 1) (erc_body dbg inv rc rfb) (opt0, nth (rfb + rp - 1) rc []) = Ok r ->
    rows_ok t rc rfb rp dbg.
  Proof.
    intros Hinv Ht Hov Hp H.
    assert (G : forall n opt tmp r, n < rp -> length tmp = length (nth (rfb + n) rc []) ->
       for_range_rev 0 n (erc_body dbg inv rc rfb) (opt, tmp) = Ok r ->
       (forall k, 1 <= k <= n -> length (nth (rfb + k) rc []) <= t) /\
       (forall k, k < n -> t <= length (nth (rfb + k) rc [])) /\
       (dbg = true -> forall k, 1 <= k <= n -> length (nth (rfb + k) rc []) = t)).
    { clear H r opt0. induction n as [|n IH]; intros opt tmp r Hn Hl H; [repeat split; intros; lia|].
      rewrite for_range_rev_step in H by lia. apply bind_ok in H. destruct H as [[opt1 tmp1] [E H]].
      unfold erc_body in E. inv_ok E. inv_ok E. inv_ok E. inv_ok E. inv_ok E. inv_ok E. injection E as <- <-.
      assert (EL : length tmp <= t).
      { destruct (le_lt_dec (length tmp) t) as [L|L]; [exact L|]. rewrite mat_vec_mul_long in E0; [discriminate E0| |].
        - intros ->. destruct Hinv as [Hi _]. simpl in Hi. lia.
        - rewrite (proj2 Hinv) by lia. exact L. }
      assert (ED : dbg = true -> length tmp = t).
      { intros ->. apply mat_vec_mul_debug in E0. rewrite (proj1 Hinv) in E0. symmetry. exact E0. }
      rewrite (mat_vec_mul_inv t (entry inv)) in E0; [|exact Hinv|reflexivity|exact EL|exact ED].
      injection E0 as <-.
      rewrite uadd_ok in E3 by lia. injection E3 as <-.
      assert (Hlt : rfb + n < length rc) by (apply (idx_inv _ _ _ E4)).
      rewrite (idx_ok []) in E4 by exact Hlt. injection E4 as <-.
      rewrite mat_apply_length in E5.
      assert (Hc : t <= length (nth (rfb + n) rc [])).
      { destruct (le_lt_dec t (length (nth (rfb + n) rc []))) as [L|L]; [exact L|exfalso].
        set (c := nth (rfb + n) rc []) in *. set (u := mat_apply t t (entry inv) tmp) in *.
        assert (Hc1 : length u = t) by apply mat_apply_length.
        destruct (for_range_inv (fun _ s => length s = length c) 1 (Nat.max 1 (length c))
          (fun k tmp => x <- idx tmp k ;; y <- idx u k ;; upd tmp k (fadd x y)) c) as [s [Es Hs]].
        - lia.
        - reflexivity.
        - intros i s Hi Hs. rewrite (idx_ok f0) by lia. cbn [bind]. rewrite (idx_ok f0) by lia. cbn [bind].
          rewrite upd_ok by lia. eexists. split; [reflexivity|]. rewrite set_nth_length by lia. exact Hs.
        - rewrite (for_range_panic 1 (Nat.max 1 (length c)) t _ _ s) in E5; [discriminate E5|lia|exact Es|].
          rewrite idx_panic by lia. reflexivity. }
      pose proof (add_loop (nth (rfb + n) rc []) (mat_apply t t (entry inv) tmp) ltac:(left; rewrite mat_apply_length; lia)) as AL.
      rewrite mat_apply_length in AL. rewrite AL in E5. injection E5 as <-.
      destruct (IH _ _ _ ltac:(lia) ltac:(rewrite map_length, seq_length; reflexivity) H) as [I1 [I2 I3]].
      split; [|split].
      - intros k Hk. destruct (Nat.eq_dec k (S n)) as [->|]; [lia|]. apply I1; lia.
      - intros k Hk. destruct (Nat.eq_dec k n) as [->|]; [exact Hc|]. apply I2; lia.
      - intros Hd k Hk. destruct (Nat.eq_dec k (S n)) as [->|]; [rewrite <- Hl; auto|]. apply I3; [exact Hd|lia]. }
    destruct (G (rp - 1) opt0 (nth (rfb + rp - 1) rc []) r ltac:(lia) ltac:(do 2 f_equal; lia) H) as [I1 [I2 I3]].
    split.
    - intros k Hk. split; [apply I1; lia|]. intros [Hd|Hk2]; [apply I3; [exact Hd|lia]|].
      specialize (I1 k ltac:(lia)). specialize (I2 k ltac:(lia)). lia.
    - intros H2. specialize (I2 0 ltac:(lia)). rewrite Nat.add_0_r in I2. exact I2.
  Qed.

  (** ** moving the constants preserves the partial rounds *)
  Section Move.
    Context (t d : nat) (M Minv : @mat F) (HI : is_inverse t M Minv) (rc : list (list F)) (rfb rp : nat) (Ht : 1 <= t).
    Let tmp := tmpd t Minv rc rfb rp.
    Let oc := optc t Minv rc rfb rp.

    Definition addv (x c : list F) : list F := map (fun i => fadd (nth i x f0) (nth i c f0)) (seq 0 t).
    (** constant after round k *)
    Definition postc (k : nat) : F := if k <? rp - 1 then oc (S k) else f0.

    Lemma move_step x n : S n < rp -> t <= length (nth (rfb + n) rc []) ->
      addv (ps_ref_partial t d M (nth (rfb + n) rc []) x) (tmp (rp - 1 - S n)) =
      post_round t d M (postc n) (addv x (tmp (rp - 1 - n))).
    Proof.
      intros Hn Hc. set (c := nth (rfb + n) rc []) in *. unfold postc.
      destruct (Nat.ltb_spec n (rp - 1)) as [_|L]; [|lia].
      set (u := mat_apply t t Minv (tmp (rp - 1 - S n))).
      assert (Eu : mat_apply t t M u = map (fun i => nth i (tmp (rp - 1 - S n)) f0) (seq 0 t)).
      { unfold u. rewrite (mat_apply_comp HF).
        apply (list_ext f0); [rewrite mat_apply_length, map_length, seq_length; reflexivity|].
        intros i Hi. rewrite mat_apply_length in Hi. rewrite mat_apply_nth, nth_map_seq by exact Hi.
        etransitivity; [|apply (sumn_delta HF t i (fun j => nth j (tmp (rp - 1 - S n)) f0)); exact Hi].
        apply sumn_ext. intros j Hj. f_equal. exact (proj1 HI i j Hi Hj). }
      unfold ps_ref_partial, post_round, addv. fold c.
      apply (list_ext f0); [rewrite mat_apply_length, map_length, seq_length; reflexivity|].
      intros i Hi. rewrite map_length, seq_length in Hi. rewrite nth_map_seq, !mat_apply_nth by exact Hi.
      assert (Ei : nth i (tmp (rp - 1 - S n)) f0 = nth i (mat_apply t t M u) f0) by (rewrite Eu, nth_map_seq by exact Hi; reflexivity).
      rewrite Ei, mat_apply_nth by exact Hi. rewrite <- (sumn_add HF). apply sumn_ext. intros j Hj.
      rewrite !nth_map_seq by lia. unfold oc, optc. fold tmp. fold u.
      replace (rp - 1 - n) with (S (rp - 1 - S n)) by lia. unfold tmp. cbn [tmpd].
      replace (rfb + rp - 1 - S (rp - 1 - S n)) with (rfb + n) by lia. fold c. fold tmp. fold u.
      rewrite !nth_map_seq by lia.
      destruct (Nat.eqb_spec j 0) as [->|N].
      - cbn [Nat.eqb]. fold tmp. change (mat_apply t t Minv (tmp (rp - 1 - S n))) with u.
        replace (fadd (nth 0 x f0) (fadd (nth 0 c f0) f0)) with (fadd (nth 0 x f0) (nth 0 c f0)) by ring. ring.
      - change (mat_apply t t Minv (tmpd t Minv rc rfb rp (rp - 1 - S n))) with u. ring.
    Qed.

    Lemma move_last x : 1 <= rp ->
      ps_ref_partial t d M (nth (rfb + rp - 1) rc []) x = post_round t d M (postc (rp - 1)) (addv x (tmp 0)).
    Proof.
      intros Hp. unfold postc. rewrite Nat.ltb_irrefl. unfold ps_ref_partial, post_round, addv. f_equal.
      apply map_seq_ext. intros i Hi. rewrite !nth_map_seq by lia. unfold tmp. cbn [tmpd].
      destruct (Nat.eqb_spec i 0) as [->|]; [ring|reflexivity].
    Qed.

    (** n rounds done *)
    Lemma move_all x : 1 <= rp -> (forall k, k < rp - 1 -> t <= length (nth (rfb + k) rc [])) ->
      fold_left (fun s r => ps_ref_partial t d M (nth r rc []) s) (seq rfb rp) x =
      fold_left (fun s k => post_round t d M (postc k) s) (seq 0 rp) (addv x (tmp (rp - 1))).
    Proof.
      intros Hp Hc.
      assert (G : forall n, n < rp ->
        addv (fold_left (fun s r => ps_ref_partial t d M (nth r rc []) s) (seq rfb n) x) (tmp (rp - 1 - n)) =
        fold_left (fun s k => post_round t d M (postc k) s) (seq 0 n) (addv x (tmp (rp - 1)))).
      { induction n as [|n IH]; intros Hn.
        - cbn [seq fold_left]. rewrite Nat.sub_0_r. reflexivity.
        - rewrite !seq_S, !fold_left_app. cbn [fold_left]. rewrite move_step by (try apply Hc; lia).
          rewrite IH by lia. rewrite Nat.add_0_l. reflexivity. }
      assert (ES : forall a, seq a rp = seq a (rp - 1) ++ [a + (rp - 1)]).
      { intros a. rewrite <- seq_S. f_equal. lia. }
      rewrite !ES, !fold_left_app. cbn [fold_left].
      replace (rfb + (rp - 1)) with (rfb + rp - 1) by lia. rewrite move_last by lia.
      rewrite Nat.add_0_l. f_equal.
      rewrite <- G by lia. rewrite Nat.sub_diag. reflexivity.
    Qed.
  End Move.

  (** ** Poseidon2Params::equivalent_round_constants *)
  Lemma mat_vec_mul_not_fuel dbg (m : list (list F)) x : mat_vec_mul dbg m x <> Fuel.
  Proof. unfold mat_vec_mul. nofuel. all: match goal with p : nat * F |- _ => destruct p; nofuel | _ => nofuel end. Qed.

  (** outcome of the common prefix *)
  Lemma mat_inverse_dims dbg t (m : list (list F)) inv : dims t t m -> mat_inverse dbg m = Ok inv ->
    dims t t inv /\ is_inverse t (entry m) (entry inv).
  Proof. apply (mat_inverse_sound HF). Qed.

  Lemma for_range_rev_first {St} hi (body : nat -> St -> res St) s : 1 <= hi ->
    (forall i, body i s <> Fuel) -> (forall i s', i = hi - 1 -> body i s <> Ok s') ->
    for_range_rev 0 hi body s = Panic.
  Proof.
    intros Hh Hf Hb. destruct hi as [|hi]; [lia|]. rewrite for_range_rev_step by lia.
    destruct (body hi s) as [s'| |] eqn:E; [|reflexivity|].
    - exfalso. apply (Hb hi s'); [lia|exact E].
    - exfalso. apply (Hf hi E).
  Qed.

  Lemma erc_body_not_fuel dbg inv rc rfb i st : erc_body dbg inv rc rfb i st <> Fuel.
  Proof.
    destruct st as [o tmp]. unfold erc_body. apply bind_not_fuel; [apply mat_vec_mul_not_fuel|]. intros a. nofuel.
  Qed.

  (** no partial round: panics in both profiles (index arithmetic underflows) *)
  Lemma erc_zero dbg inv rc rfb (o tmp : _) hi : usub dbg 0 1 = Ok hi -> length o <= 1 ->
    for_range_rev 0 hi (erc_body dbg inv rc rfb) (o, tmp) = Panic.
  Proof.
    intros Hu Ho. unfold usub in Hu. cbn [Nat.leb] in Hu. destruct dbg; [discriminate|].
    assert (Hh : 2 <= hi).
    { assert (E : N.to_nat (usize_mod + N.of_nat 0 - N.of_nat 1) = hi) by congruence. rewrite <- E. unfold usize_mod. lia. }
    apply for_range_rev_first; [lia|intros i; apply erc_body_not_fuel|].
    intros i s' Hi E. unfold erc_body in E. inv_ok E. inv_ok E. inv_ok E. apply upd_inv in E2. lia.
  Qed.

  Theorem p2_equivalent_rc_correct dbg t d (rc mi : list (list F)) rfb rp opt x :
    dims t t mi -> 2 <= t -> (N.of_nat rfb + N.of_nat rp + 1 < usize_mod)%N ->
    p2_equivalent_round_constants dbg rc mi rfb rp = Ok opt ->
    1 <= rp /\ length opt = rp + 1 /\
    fold_left (fun s r => ps_ref_partial t d (entry mi) (nth r rc []) s) (seq rfb rp) x =
    fold_left (fun s k => post_round t d (entry mi) (nth 0 (nth (k + 1) opt []) f0) s) (seq 0 rp)
      (map (fun i => fadd (nth i x f0) (nth i (nth 0 opt []) f0)) (seq 0 t)).
  Proof.
    intros Hd Ht Hov H. unfold p2_equivalent_round_constants in H.
    rewrite uadd_ok in H by lia. cbn [bind] in H.
    inv_ok H. rename a into inv, E into Einv.
    rewrite uadd_ok in H by lia. cbn [bind] in H. inv_ok H. inv_ok H.
    destruct rp as [|rp'] eqn:Erp; [|rewrite <- Erp in *].
    - exfalso. apply bind_ok in H. destruct H as [hi [Hu H]].
      match type of H with bind (for_range_rev 0 hi ?b ?s) _ = _ => change b with (erc_body dbg inv rc rfb) in H end.
      rewrite erc_zero in H; [discriminate H|exact Hu|]. rewrite repeat_length. lia.
    - assert (Hp : 1 <= rp) by lia. rewrite (usub_ok dbg (rfb + rp) 1) in E by lia. injection E as <-.
      rewrite usub_ok in H by lia. cbn [bind] in H.
      assert (Hl : rfb + rp - 1 < length rc) by (apply (idx_inv _ _ _ E0)).
      rewrite (idx_ok []) in E0 by exact Hl. injection E0 as <-.
      match type of H with bind (for_range_rev 0 _ ?b ?s) _ = _ => change b with (erc_body dbg inv rc rfb) in H end.
      destruct (mat_inverse_dims _ _ _ _ Hd Einv) as [Hdi HI].
      apply bind_ok in H. destruct H as [r [EL H]].
      pose proof (erc_loop_rows dbg t inv rc rfb rp _ r Hdi Ht ltac:(lia) Hp EL) as HR.
      destruct (erc_loop t (entry inv) rc rfb rp dbg inv Hdi ltac:(reflexivity) ltac:(lia) ltac:(lia)
                  (repeat [] (rp + 1)) HR Hp ltac:(rewrite repeat_length; lia)) as [o [EL' [Ho1 [Ho2 _]]]].
      rewrite EL in EL'. injection EL' as ->. rewrite repeat_length in Ho1.
      rewrite upd_ok in H by lia. cbn [bind] in H.
      rewrite (idx_ok []) in H by (rewrite set_nth_length; lia). cbn [bind] in H.
      rewrite upd_ok in H by (rewrite set_nth_length; lia). injection H as <-.
      split; [exact Hp|]. split; [rewrite !set_nth_length; rewrite ?set_nth_length; lia|].
      rewrite (move_all t d (entry mi) (entry inv) HI rc rfb rp ltac:(lia) x Hp).
      2:{ intros k Hk. destruct HR as [R1 R2]. destruct k as [|k]; [rewrite Nat.add_0_r; apply R2; lia|].
          destruct (R1 (S k) ltac:(lia)) as [_ R3]. rewrite R3 by lia. lia. }
      assert (Z : nth 0 (set_nth (set_nth o 0 (tmpd t (entry inv) rc rfb rp (rp - 1))) rp
            (repeat f0 (length (tmpd t (entry inv) rc rfb rp (rp - 1))))) [] =
          tmpd t (entry inv) rc rfb rp (rp - 1)).
      { rewrite set_nth_nth by (rewrite set_nth_length; lia). destruct (Nat.eqb_spec 0 rp); [lia|].
        rewrite set_nth_nth by lia. reflexivity. }
      rewrite Z. unfold addv.
      apply fold_left_ext_in. intros s k Hk. apply in_seq in Hk. f_equal.
      rewrite set_nth_nth by (rewrite set_nth_length; lia). unfold postc.
      destruct (Nat.eqb_spec (k + 1) rp) as [E|N].
      + destruct (Nat.ltb_spec k (rp - 1)); [lia|]. rewrite nth_repeat_same. reflexivity.
      + destruct (Nat.ltb_spec k (rp - 1)); [|lia]. rewrite set_nth_nth by lia.
        destruct (Nat.eqb_spec (k + 1) 0); [lia|]. rewrite Ho2 by lia. rewrite Nat.add_1_r. reflexivity.
  Qed.

  (** it returns exactly when the elimination succeeds, on well-dimensioned data *)
  Theorem p2_equivalent_rc_returns dbg t (rc mi : list (list F)) rfb rp :
    dims t t mi -> 2 <= t -> (N.of_nat rfb + N.of_nat rp + 1 < usize_mod)%N ->
    (forall k, k < rp -> length (nth (rfb + k) rc []) = t) ->
    ((exists opt, p2_equivalent_round_constants dbg rc mi rfb rp = Ok opt) <->
     1 <= rp /\ leading_blocks t (entry mi)).
  Proof.
    intros Hd Ht Hov Hrows. split.
    - intros [opt H]. split.
      + destruct (p2_equivalent_rc_correct dbg t 3 rc mi rfb rp opt [] Hd Ht Hov H) as [G _]. exact G.
      + unfold p2_equivalent_round_constants in H. inv_ok H. inv_ok H.
        exact (proj1 (proj1 (mat_inverse_success HF dbg t mi ltac:(lia) Hd)) (ex_intro _ _ E0)).
    - intros [Hp HL]. destruct (proj2 (proj1 (mat_inverse_success HF dbg t mi ltac:(lia) Hd)) HL) as [inv Einv].
      destruct (mat_inverse_dims _ _ _ _ Hd Einv) as [Hdi HI].
      unfold p2_equivalent_round_constants. rewrite uadd_ok by lia. cbn [bind]. rewrite Einv. cbn [bind].
      rewrite uadd_ok by lia. cbn [bind]. rewrite usub_ok by lia. cbn [bind].
      assert (Hl : rfb + rp - 1 < length rc).
      { destruct (le_lt_dec (length rc) (rfb + rp - 1)) as [L|L]; [|exact L].
        pose proof (Hrows (rp - 1) ltac:(lia)) as R. rewrite nth_overflow in R by lia. simpl in R. lia. }
      rewrite (idx_ok []) by exact Hl. cbn [bind]. rewrite usub_ok by lia. cbn [bind].
      match goal with |- exists o, bind (for_range_rev 0 _ ?b ?s) _ = _ => change b with (erc_body dbg inv rc rfb) end.
      destruct (erc_loop t (entry inv) rc rfb rp dbg inv Hdi ltac:(reflexivity) ltac:(lia) ltac:(lia)
                  (repeat [] (rp + 1))) as [o [EL [Ho1 _]]].
      + split; [intros k Hk; rewrite Hrows by lia; auto|]. intros _. specialize (Hrows 0 ltac:(lia)). rewrite Nat.add_0_r in Hrows. lia.
      + exact Hp.
      + rewrite repeat_length; lia.
      + rewrite EL. cbn [bind]. rewrite repeat_length in Ho1.
        rewrite upd_ok by lia. cbn [bind]. rewrite (idx_ok []) by (rewrite set_nth_length; lia). cbn [bind].
        rewrite upd_ok by (rewrite set_nth_length; lia). eexists. reflexivity.
  Qed.
End EquivRC.
