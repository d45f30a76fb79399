(** * Neptune: layers, reference, bijection (C27-C30) *)
From Coq Require Import ZifyNat Zify.
From Verif Require Import Base Field Spec LinAlg LoopLemmas MatLoops FieldPow Bij ModelPoseidon2 ModelRandom ModelNeptune SpecNeptune
  SpecPoseidon2 ProofPoseidon2 ProofPoseidon2Lin ProofPoseidon2Bij ProofNeptuneParams.
Ltac Zify.zify_post_hook ::= Z.to_euclidean_division_equations.

Section Np.
  Context {F : Type} {Fo : FOps F} (HF : is_field Fo).
  Add Ring FringNp : (ff_ring _ HF).

  (** the S-box on a pair *)
  Lemma np_pair_ok P ga x1 x2 : np_abc P = (f1, f1, ga) ->
    np_external_sbox_prime P x1 x2 = np_pair f1 f1 ga x1 x2.
  Proof.
    intros E. unfold np_external_sbox_prime, np_pair. rewrite E. cbn [snd]. unfold fdouble, fsquare. cbv zeta.
    apply f_equal2; ring.
  Qed.

  Definition pair_inv (i5 ga y1 y2 : F) : F * F :=
    let w := fadd (fsub y1 y2) ga in
    let a := fsub y1 (fmul w w) in
    let b := fsub y2 (fmul w w) in
    let z := fmul i5 (fsub (fadd (fadd a a) (fadd a a)) (fadd (fadd b b) b)) in
    let x2 := fsub z (fadd (fsub y1 y2) (fmul z z)) in
    (fadd z x2, x2).

  Lemma pair_inv_l i5 ga x1 x2 : fmul i5 (fnat 5) = (f1 : F) ->
    pair_inv i5 ga (fst (np_pair f1 f1 ga x1 x2)) (snd (np_pair f1 f1 ga x1 x2)) = (x1, x2).
  Proof.
    intros H5. unfold np_pair, pair_inv. cbn [fst snd]. cbv zeta.
    set (w := fadd (fsub (fmul f1 (fsub x1 (fmul (fadd f1 f1) x2))) (fmul f1 (fmul (fsub x1 x2) (fsub x1 x2)))) ga).
    match goal with |- context [fsub (fsub ?y1 ?y2) _] => idtac | _ => idtac end.
    set (y1 := fadd _ (fmul f1 (fmul w w))). set (y2 := fadd (fadd (fmul (fmul f1 f1) (fadd x1 _)) _) (fmul f1 (fmul w w))).
    assert (D : fadd (fsub y1 y2) ga = w) by (unfold y1, y2, w; ring). rewrite D.
    assert (Z : fmul i5 (fsub (fadd (fadd (fsub y1 (fmul w w)) (fsub y1 (fmul w w))) (fadd (fsub y1 (fmul w w)) (fsub y1 (fmul w w))))
                       (fadd (fadd (fsub y2 (fmul w w)) (fsub y2 (fmul w w))) (fsub y2 (fmul w w)))) = fsub x1 x2).
    { transitivity (fmul (fmul i5 (fnat 5)) (fsub x1 x2)); [unfold y1, y2, fnat; cbn [sumn]; ring|rewrite H5; ring]. }
    rewrite Z. unfold y1, y2. apply f_equal2; ring.
  Qed.
  Lemma pair_inv_r i5 ga y1 y2 : fmul i5 (fnat 5) = (f1 : F) ->
    np_pair f1 f1 ga (fst (pair_inv i5 ga y1 y2)) (snd (pair_inv i5 ga y1 y2)) = (y1, y2).
  Proof.
    intros H5. unfold np_pair, pair_inv. cbn [fst snd]. cbv zeta.
    set (w := fadd (fsub y1 y2) ga). set (a := fsub y1 (fmul w w)). set (b := fsub y2 (fmul w w)).
    set (z := fmul i5 _).
    assert (Z : fmul z (fnat 5) = fsub (fadd (fadd a a) (fadd a a)) (fadd (fadd b b) b)).
    { unfold z. transitivity (fmul (fmul i5 (fnat 5)) (fsub (fadd (fadd a a) (fadd a a)) (fadd (fadd b b) b))); [ring|rewrite H5; ring]. }
    unfold fnat in Z. cbn [sumn] in Z.
    assert (Z5 : fadd (fadd (fadd (fadd z z) z) z) z = fsub (fadd (fadd a a) (fadd a a)) (fadd (fadd b b) b)) by (rewrite <- Z; ring).
    assert (W : fadd (fsub (fmul f1 (fsub (fadd z (fsub z (fadd (fsub y1 y2) (fmul z z)))) (fmul (fadd f1 f1) (fsub z (fadd (fsub y1 y2) (fmul z z))))))
       (fmul f1 (fmul (fsub (fadd z (fsub z (fadd (fsub y1 y2) (fmul z z)))) (fsub z (fadd (fsub y1 y2) (fmul z z))))
                      (fsub (fadd z (fsub z (fadd (fsub y1 y2) (fmul z z)))) (fsub z (fadd (fsub y1 y2) (fmul z z))))))) ga = w)
      by (unfold w; ring).
    rewrite W. apply f_equal2.
    - transitivity (fadd (fsub (fadd (fadd (fadd (fadd z z) z) z) z) (fadd (fadd (fsub y1 y2) (fsub y1 y2)) (fsub y1 y2))) (fmul w w)); [ring|].
      rewrite Z5. unfold a, b. ring.
    - transitivity (fadd (fsub (fadd (fadd (fadd (fadd z z) z) z) z) (fadd (fadd (fsub y1 y2) (fsub y1 y2)) (fadd (fsub y1 y2) (fsub y1 y2)))) (fmul w w)); [ring|].
      rewrite Z5. unfold a, b. ring.
  Qed.

  (** in characteristic 5 the pairs (0,0) and (1,0) collide *)
  Lemma pair_collision ga : fnat 5 = (f0 : F) -> np_pair f1 f1 ga f0 f0 = np_pair f1 f1 ga f1 f0.
  Proof.
    intros H5. unfold fnat in H5. cbn [sumn] in H5.
    assert (H5' : fadd (fadd (fadd (fadd f1 f1) f1) f1) f1 = (f0 : F)) by (etransitivity; [|exact H5]; ring).
    unfold np_pair. cbv zeta. apply f_equal2.
    - transitivity (fadd f0 (fmul ga ga)); [ring|]. etransitivity; [apply (f_equal2 fadd); [symmetry; exact H5'|reflexivity]|]. ring.
    - transitivity (fadd f0 (fmul ga ga)); [ring|]. etransitivity; [apply (f_equal2 fadd); [symmetry; exact H5'|reflexivity]|]. ring.
  Qed.

  (** the S-box layer *)
  Lemma np_sbox_layer P ga x t : np_abc P = (f1, f1, ga) -> length x = t -> t mod 2 = 0 ->
    np_external_sbox P x = Ok (np_ref_sbox t (np_abc P) x).
  Proof.
    intros E Hx Ht. unfold np_external_sbox. rewrite Hx. set (n := t / 2). rewrite E. cbn [np_ref_sbox].
    set (R := fun i => if Nat.even i then fst (np_pair f1 f1 ga (nth i x f0) (nth (S i) x f0)) else snd (np_pair f1 f1 ga (nth (i - 1) x f0) (nth i x f0))).
    destruct (for_range_inv (fun k s => length s = t /\ forall j, j < t -> nth j s f0 = if j <? 2 * k then R j else f0) 0 n
      (fun i output =>
        a <- idx x (2 * i) ;; b <- idx x (2 * i + 1) ;;
        let out := np_external_sbox_prime P a b in
        output <- upd output (2 * i) (fst out) ;;
        upd output (2 * i + 1) (snd out)) (repeat f0 t)) as [s [Es [Ls Hs]]].
    - lia.
    - split; [apply repeat_length|]. intros j Hj. rewrite nth_repeat_same. destruct (Nat.ltb_spec j (2 * 0)); [lia|reflexivity].
    - intros i s Hi [Ls Hs]. assert (2 * i + 1 < t) by lia.
      rewrite (idx_ok f0) by lia. cbn [bind]. rewrite (idx_ok f0) by lia. cbn [bind]. cbv zeta. rewrite (np_pair_ok P ga) by exact E.
      rewrite upd_ok by lia. cbn [bind]. rewrite upd_ok by (rewrite set_nth_length; lia).
      eexists. split; [reflexivity|]. split; [rewrite !set_nth_length; rewrite ?set_nth_length; lia|].
      intros j Hj. rewrite set_nth_nth by (rewrite set_nth_length; lia). rewrite set_nth_nth by lia.
      destruct (Nat.eqb_spec j (2 * i + 1)) as [->|N1]; [|destruct (Nat.eqb_spec j (2 * i)) as [->|N2]].
      + destruct (Nat.ltb_spec (2 * i + 1) (2 * S i)); [|lia]. unfold R.
        replace (Nat.even (2 * i + 1)) with false by (rewrite Nat.add_comm, Nat.even_add_mul_2; reflexivity).
        replace (2 * i + 1 - 1) with (2 * i) by lia. reflexivity.
      + destruct (Nat.ltb_spec (2 * i) (2 * S i)); [|lia]. unfold R.
        replace (Nat.even (2 * i)) with true by (rewrite Nat.even_mul; reflexivity).
        replace (S (2 * i)) with (2 * i + 1) by lia. reflexivity.
      + rewrite Hs by exact Hj. destruct (Nat.ltb_spec j (2 * i)), (Nat.ltb_spec j (2 * S i)); try reflexivity; lia.
    - etransitivity; [exact Es|]. f_equal. apply (list_ext f0); [rewrite map_length, seq_length; exact Ls|]. intros j Hj. rewrite Ls in Hj.
      rewrite Hs by exact Hj. rewrite nth_map_seq by exact Hj. destruct (Nat.ltb_spec j (2 * n)); [reflexivity|unfold n in *; lia].
  Qed.

  Lemma np_ref_sbox_length t abc x : length (np_ref_sbox t abc x) = t.
  Proof. unfold np_ref_sbox. destruct abc as [[? ?] ?]. rewrite map_length, seq_length. reflexivity. Qed.

  (** the internal layer *)
  Lemma np_int_ok P x t : length x = t -> length (np_mu P) = t -> 1 <= t ->
    np_internal_matmul P x = Ok (mat_apply t t (np_int_matrix (fun i => fadd (nth i (np_mu P) f0) f1)) x).
  Proof.
    intros Hx Hm Ht. unfold np_internal_matmul. rewrite (idx_ok f0) by lia. cbn [bind].
    assert (Es : fold_left fadd (skipn 1 x) (nth 0 x f0) = sumn t (fun i => nth i x f0)).
    { rewrite (fold_left_fadd HF). rewrite skipn_length. destruct t as [|t]; [lia|]. rewrite Hx, (sumn_first HF). f_equal.
      replace (S t - 1) with t by lia. apply sumn_ext. intros i Hi. destruct x as [|a x]; [simpl in Hx; lia|]. reflexivity. }
    rewrite Es. rewrite Hm, Hx, Nat.min_id. rewrite <- Hx at 1.
    rewrite (for_range_map f0 (fun i a => fadd (fmul a (nth i (np_mu P) f0)) (sumn t (fun i => nth i x f0)))).
    - f_equal. unfold mat_apply. rewrite Hx. apply map_seq_ext. intros i Hi. unfold np_int_matrix.
      transitivity (fadd (sumn t (fun j => if i =? j then fmul (nth i (np_mu P) f0) (nth j x f0) else f0)) (sumn t (fun j => nth j x f0))).
      + f_equal. rewrite (sumn_single HF t i); [rewrite Nat.eqb_refl; ring|exact Hi|].
        intros j Hj N. destruct (Nat.eqb_spec i j); [congruence|reflexivity].
      + rewrite <- (sumn_add HF). apply sumn_ext. intros j Hj. destruct (Nat.eqb_spec i j) as [->|]; ring.
    - intros i s Hi Hs E. rewrite (idx_ok f0) by lia. cbn [bind]. rewrite (idx_ok f0) by lia. reflexivity.
  Qed.

  Lemma np_isbox_ok P x t : length x = t -> 1 <= t -> sbox_degree (np_d P) ->
    np_internal_sbox P x = Ok (map (fun i => if i =? 0 then fpow (nth 0 x f0) (np_d P) else nth i x f0) (seq 0 t)).
  Proof.
    intros Hx Ht Hd. unfold np_internal_sbox. rewrite (idx_ok f0) by lia. cbn [bind].
    unfold np_sbox_d. cbv zeta. rewrite (sbox_cases HF (np_d P)). rewrite (proj2 (degree_bool _) Hd). cbn [bind].
    rewrite upd_ok by lia. f_equal. apply (list_ext f0); [rewrite set_nth_length, map_length, seq_length; lia|].
    intros i Hi. rewrite set_nth_length in Hi by lia. rewrite set_nth_nth by lia. rewrite nth_map_seq by lia. reflexivity.
  Qed.

  (** the generic external layer *)
  Lemma sumn_pairs n (f : nat -> F) : sumn (2 * n) f = fadd (sumn n (fun c => f (2 * c))) (sumn n (fun c => f (2 * c + 1))).
  Proof.
    induction n as [|n IH]; [cbn; ring|]. replace (2 * S n) with (S (S (2 * n))) by lia. cbn [sumn]. rewrite IH.
    replace (S (2 * n)) with (2 * n + 1) by lia. ring.
  Qed.

  Definition ext_sum (E : nat -> nat -> F) (x : list F) (n j : nat) : F :=
    sumn n (fun c => fmul (E j (2 * c + j mod 2)) (nth (2 * c + j mod 2) x f0)).

  Lemma np_ext_generic P x t (E : nat -> nat -> F) : t <> 4 -> t <> 8 -> np_t P = t -> t mod 2 = 0 -> length x = t ->
    np_m_e P = mk_mat t t E -> (forall i j, i mod 2 <> j mod 2 -> E i j = f0) ->
    np_external_matmul P x = Ok (mat_apply t t E x).
  Proof.
    intros N4 N8 Ht Hev Hx Hm Hz. unfold np_external_matmul. rewrite Ht.
    destruct (Nat.eqb_spec t 4) as [|_]; [contradiction|]. destruct (Nat.eqb_spec t 8) as [|_]; [contradiction|]. rewrite Hm.
    set (n := t / 2). assert (T : t = 2 * n) by (unfold n; lia).
    destruct (for_range_inv (fun r s => length s = t /\ forall j, j < t -> nth j s f0 = if j <? 2 * r then ext_sum E x n j else f0) 0 n
      (fun row out => for_range 0 n (fun col out =>
          tmp_e <- idx2 (mk_mat t t E) (2 * row) (2 * col) ;;
          x' <- idx x (2 * col) ;;
          o <- idx out (2 * row) ;;
          out <- upd out (2 * row) (fadd o (fmul tmp_e x')) ;;
          tmp_o <- idx2 (mk_mat t t E) (2 * row + 1) (2 * col + 1) ;;
          x' <- idx x (2 * col + 1) ;;
          o <- idx out (2 * row + 1) ;;
          upd out (2 * row + 1) (fadd o (fmul tmp_o x'))) out) (repeat f0 t)) as [s [Es [Ls Hs]]].
    - lia.
    - split; [apply repeat_length|]. intros j Hj. rewrite nth_repeat_same. destruct (Nat.ltb_spec j (2 * 0)); [lia|reflexivity].
    - intros row s0 Hrow [L0 H0].
      destruct (for_range_inv (fun c s => length s = t /\ forall j, j < t -> nth j s f0 = if j / 2 =? row then ext_sum E x c j else nth j s0 f0) 0 n
        (fun col out =>
          tmp_e <- idx2 (mk_mat t t E) (2 * row) (2 * col) ;;
          x' <- idx x (2 * col) ;;
          o <- idx out (2 * row) ;;
          out <- upd out (2 * row) (fadd o (fmul tmp_e x')) ;;
          tmp_o <- idx2 (mk_mat t t E) (2 * row + 1) (2 * col + 1) ;;
          x' <- idx x (2 * col + 1) ;;
          o <- idx out (2 * row + 1) ;;
          upd out (2 * row + 1) (fadd o (fmul tmp_o x'))) s0) as [s [Es [Ls Hs]]].
      + lia.
      + split; [exact L0|]. intros j Hj. destruct (Nat.eqb_spec (j / 2) row) as [Ej|]; [|reflexivity].
        rewrite H0 by exact Hj. destruct (Nat.ltb_spec j (2 * row)); [lia|reflexivity].
      + intros col s Hcol [Ls Hs].
        rewrite idx2_mk by lia. cbn [bind]. rewrite (idx_ok f0 x) by lia. cbn [bind]. rewrite (idx_ok f0 s) by lia. cbn [bind].
        rewrite upd_ok by lia. cbn [bind]. rewrite idx2_mk by lia. cbn [bind]. rewrite (idx_ok f0 x) by lia. cbn [bind].
        rewrite (idx_ok f0) by (rewrite set_nth_length; lia). cbn [bind]. rewrite upd_ok by (rewrite set_nth_length; lia).
        eexists. split; [reflexivity|]. split; [rewrite !set_nth_length; rewrite ?set_nth_length; lia|].
        intros j Hj. rewrite set_nth_nth by (rewrite set_nth_length; lia). rewrite !set_nth_nth by lia.
        destruct (Nat.eqb_spec (2 * row + 1) (2 * row)); [lia|].
        destruct (Nat.eqb_spec j (2 * row + 1)) as [Ej|N1]; [|destruct (Nat.eqb_spec j (2 * row)) as [Ej|N2]].
        * subst j. destruct (Nat.eqb_spec ((2 * row + 1) / 2) row); [|lia]. rewrite Hs by exact Hj.
          destruct (Nat.eqb_spec ((2 * row + 1) / 2) row); [|lia]. unfold ext_sum. replace ((2 * row + 1) mod 2) with 1 by lia. reflexivity.
        * subst j. destruct (Nat.eqb_spec (2 * row / 2) row); [|lia]. rewrite Hs by exact Hj.
          destruct (Nat.eqb_spec (2 * row / 2) row); [|lia]. unfold ext_sum. replace (2 * row mod 2) with 0 by lia. cbn [sumn]. rewrite !Nat.add_0_r. reflexivity.
        * rewrite Hs by exact Hj. destruct (Nat.eqb_spec (j / 2) row); [lia|reflexivity].
      + exists s. split; [exact Es|]. split; [exact Ls|]. intros j Hj. rewrite Hs by exact Hj.
        destruct (Nat.eqb_spec (j / 2) row) as [Ej|Nj].
        * destruct (Nat.ltb_spec j (2 * S row)); [reflexivity|lia].
        * rewrite H0 by exact Hj. destruct (Nat.ltb_spec j (2 * row)), (Nat.ltb_spec j (2 * S row)); try reflexivity; lia.
    - etransitivity; [exact Es|]. f_equal. apply (list_ext f0); [rewrite mat_apply_length; exact Ls|]. intros j Hj. rewrite Ls in Hj.
      rewrite Hs by exact Hj. destruct (Nat.ltb_spec j (2 * n)); [|lia]. rewrite mat_apply_nth by exact Hj.
      rewrite T, sumn_pairs. unfold ext_sum. assert (J : j mod 2 = 0 \/ j mod 2 = 1) by lia. destruct J as [J|J]; rewrite J.
      + rewrite (sumn_zero HF n (fun c => fmul (E j (2 * c + 1)) (nth (2 * c + 1) x f0))).
        * etransitivity; [apply sumn_ext; intros c Hc; rewrite Nat.add_0_r; reflexivity|]. ring.
        * intros c Hc. rewrite Hz by lia. ring.
      + rewrite (sumn_zero HF n (fun c => fmul (E j (2 * c)) (nth (2 * c) x f0))); [ring|].
        intros c Hc. rewrite Hz by lia. ring.
  Qed.
End Np.
