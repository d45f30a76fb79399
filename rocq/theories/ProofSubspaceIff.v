(** * ProofSubspaceIff: exactly which matrices the three algorithms of the script accept *)
From Verif Require Import Base Field Spec SpecPoseidon SpecMinPoly LinAlg FieldPow LinOp Vec ModelSubspace Elim ProofSubspace CyclicCert.
Local Open Scope nat_scope.

Section SubspaceIff.
  Context {F : Type} {Fo : FOps F} (HF : is_field Fo) {t : nat}.
  Add Ring FringSSI : (ff_ring _ HF).
  Notation act A := (LinOp.act (vz := vz) (vadd := vadd) (vsc := vsc) (A := A)).
  Notation vec := (Vec.vec F t).

  Section M.
    Context {M : @mat F} (Ht : 2 <= t).
    Notation obs := (obs (t := t) (M := M)).

    Lemma monic_relation (x : vec) : exists c, length c = S t /\ (exists a, In a c /\ a <> f0) /\ act (mop M) c x = vz.
    Proof.
      destruct (underdetermined HF t (S t) (fun i j => vc (iter j (mop M) x) i) (Nat.lt_succ_diag_r t)) as [c [[j [Hj Nj]] Hc]].
      exists (map c (seq 0 (S t))). split; [rewrite map_length, seq_length; reflexivity|]. split.
      - exists (c j). split; [apply in_map, in_seq; lia|exact Nj].
      - apply vec_ext. intros i Hi. rewrite (act_vc HF _ (mop_linear HF M)) by exact Hi. rewrite map_length, seq_length.
        unfold vz. rewrite vc_mk by exact Hi. etransitivity; [|exact (Hc i Hi)]. apply sumn_ext. intros k Hk.
        rewrite (nth_map_d _ _ k 0) by (rewrite seq_length; exact Hk). rewrite seq_nth by exact Hk. cbn [Nat.add]. ring.
    Qed.

    (** ** algorithm_1 *)
    Lemma obs_lin k a x y : obs k (vadd (vsc a x) y) = fadd (fmul a (obs k x)) (obs k y).
    Proof.
      unfold ProofSubspace.obs. rewrite (proj1 (iter_linear HF (vec_module HF) (mop_linear HF M) k)), (proj2 (iter_linear HF (vec_module HF) (mop_linear HF M) k)).
      unfold vadd, vsc. rewrite !vc_mk by lia. reflexivity.
    Qed.
    Lemma obs_z k : obs k vz = f0.
    Proof. unfold ProofSubspace.obs. rewrite iter_fix; [assert (H0 : 0 < t) by lia; exact (vc_mk (fun _ => f0) 0 H0)|]. apply (lin_z HF (vec_module HF) (mop_linear HF M)). Qed.
    Lemma obs_step k x : obs k (mop M x) = obs (S k) x.
    Proof. unfold ProofSubspace.obs. rewrite iter_shift. reflexivity. Qed.

    Section Invariant.
      Context (r : nat) (Hr : 1 <= r) (Inv : forall x, (forall k, k < r -> obs k x = f0) -> obs r x = f0).
      Let U (x : vec) : Prop := forall k, k < r -> obs k x = f0.
      Lemma U_lin a x y : U x -> U y -> U (vadd (vsc a x) y).
      Proof. intros Hx Hy k Hk. rewrite obs_lin, (Hx k Hk), (Hy k Hk). ring. Qed.
      Lemma U_z : U vz. Proof. intros k _. apply obs_z. Qed.
      Lemma U_M x : U x -> U (mop M x).
      Proof.
        intros Hx k Hk. rewrite obs_step. destruct (Nat.eq_dec (S k) r) as [E|N]; [rewrite E; apply Inv, Hx|apply Hx; lia].
      Qed.
      Lemma U_sc a x : U x -> U (vsc a x).
      Proof. intros Hx. rewrite <- (vadd_0_r HF (vec_module HF) (vsc a x)). apply U_lin; [exact Hx|apply U_z]. Qed.
      Lemma U_act c x : U x -> U (act (mop M) c x).
      Proof. intros Hx. induction c as [|a c IH]; cbn [LinOp.act]; [apply U_z|]. apply U_lin; [exact Hx|apply U_M, IH]. Qed.

      Lemma U_onto : (forall x, U x -> mop M x = vz -> x = vz) -> forall x, U x -> exists y, U y /\ mop M y = x.
      Proof.
        intros Inj x Hx. destruct (monic_relation x) as [c [_ [Nc Hc]]]. revert Nc Hc. induction c as [|a c IH]; intros [b [Hb Nb]] Hc; [destruct Hb|].
        cbn [LinOp.act] in Hc. destruct (feq_dec HF a f0) as [E|E].
        - apply IH.
          + exists b. split; [|exact Nb]. destruct Hb as [->|Hb]; [contradiction|exact Hb].
          + apply Inj; [apply U_act, Hx|]. etransitivity; [|exact Hc]. rewrite E, (vm_sc0 _ _ _ _ (vec_module HF)). symmetry. apply (vm_0 _ _ _ _ (vec_module HF)).
        - exists (vsc (fopp (finv a)) (act (mop M) c x)). split; [apply U_sc, U_act, Hx|].
          rewrite (proj2 (mop_linear HF M)). apply vec_ext. intros i Hi.
          pose proof (f_equal (fun v => vc v i) Hc) as Hi'. cbv beta in Hi'. unfold vadd, vsc, vz in Hi'. rewrite !vc_mk in Hi' by exact Hi.
          unfold vsc. rewrite vc_mk by exact Hi. set (z := vc (mop M _) i) in *.
          transitivity (fadd (fmul (fmul (finv a) a) (vc x i)) (fmul (fopp (finv a)) (fadd (fmul a (vc x i)) z))); [ring|].
          rewrite Hi', (ff_inv _ HF a E). ring.
      Qed.

      Lemma invariant_rejected : r < t -> ~ algorithm_1 M t.
      Proof.
        intros Hrt Hacc. destruct (Hacc r ltac:(lia)) as [_ [C2 C3]].
        set (S := generate_vectorspace r (fun j => mat_pow t M (j + 1)) t) in *.
        assert (TV : forall y : vec, to_vec (proj1_sig y) = y) by (intros y; apply vec_eq, to_vec_list, vec_length).
        assert (HS : forall x, S x <-> length x = t /\ U (to_vec x)) by (intros x; apply (vectorspace_iff HF Ht); exact Hr).
        assert (Inj : forall x, U x -> mop M x = vz -> x = vz).
        { intros x Hx Ex. destruct (list_eq_dec (feq_dec HF) (proj1_sig x) (proj1_sig (vz (F := F) (t := t)))) as [E|N]; [apply vec_eq, E|].
          exfalso. apply C2. split.
          - exists (proj1_sig x). split; [|intros E; apply N; rewrite E; symmetry; apply map_const_repeat].
            unfold eigen_part. apply (span_in HF); [|apply vec_length]. split; [apply HS; rewrite TV; split; [apply vec_length|exact Hx]|].
            exists f0. rewrite <- mop_list, (mop_pow HF). transitivity (proj1_sig (vz (F := F) (t := t))).
            + f_equal. destruct r as [|n]; [lia|]. replace (Datatypes.S n) with (n + 1) by lia. rewrite iter_add. cbn [iter]. rewrite Ex.
              apply iter_fix. apply (lin_z HF (vec_module HF) (mop_linear HF M)).
            + cbn [vz mkvec proj1_sig]. apply map_ext. intros i. ring.
          - intros E. assert (Q : forall v, eigen_part S (mat_pow t M r) t v -> nth 0 v f0 = f0).
            { intros v Hv. induction Hv as [|a y v [Hy _] Hv IH]; [apply nth_repeat|].
              rewrite (nth_map_d _ _ 0 0) by (rewrite seq_length; lia). rewrite seq_nth by lia. cbn [Nat.add]. rewrite IH.
              apply HS in Hy. destruct Hy as [Ly Hy]. specialize (Hy 0 Hr). unfold ProofSubspace.obs in Hy. cbn [iter] in Hy. unfold to_vec in Hy.
              rewrite vc_mk in Hy by lia. rewrite Hy. ring. }
            apply (ff_one_neq_zero _ HF). rewrite <- (Q (basis_vector t 0)).
            + rewrite basis_vector_nth by lia. reflexivity.
            + apply E. unfold basis_vector. rewrite map_length, seq_length. reflexivity. }
        apply (C3 1 ltac:(lia)). intros x.
        assert (P1 : forall v : vec, mat_apply t t (mat_pow t M 1) (proj1_sig v) = proj1_sig (mop M v)).
        { intros v. rewrite <- mop_list, (mop_pow HF). reflexivity. }
        split.
        - intros Hx. apply HS in Hx. destruct Hx as [Lx Hx]. destruct (U_onto Inj _ Hx) as [y [Hy Ey]].
          apply (span_in HF); [|exact Lx]. exists (proj1_sig y). split; [apply HS; rewrite TV; split; [apply vec_length|exact Hy]|].
          rewrite P1, Ey. symmetry. apply to_vec_list. exact Lx.
        - intros Hx. induction Hx as [|a y v [x [Hx ->]] Hv IH].
          + apply HS. split; [apply repeat_length|]. replace (to_vec (repeat f0 t)) with (vz (F := F) (t := t)); [apply U_z|].
            apply vec_eq. cbn [vz mkvec proj1_sig to_vec]. apply map_ext. intros i. symmetry. apply nth_repeat.
          + apply HS in IH. destruct IH as [Lv Hv']. apply HS in Hx. destruct Hx as [Lx Hx]. apply HS. split; [rewrite map_length, seq_length; reflexivity|].
            replace (to_vec _) with (vadd (vsc a (mop M (to_vec x))) (to_vec v) : vec); [apply U_lin; [apply U_M, Hx|exact Hv']|].
            apply vec_ext. intros i Hi. unfold vadd, vsc. rewrite !vc_mk by exact Hi.
            unfold to_vec at 2 3. rewrite !vc_mk by exact Hi. rewrite (nth_map_d _ _ i 0) by (rewrite seq_length; exact Hi). rewrite seq_nth by exact Hi. cbn [Nat.add].
            f_equal. f_equal. rewrite <- (to_vec_list x Lx) at 2. rewrite P1. reflexivity.
      Qed.
    End Invariant.

    Theorem algorithm_1_iff : algorithm_1 M t <-> left_krylov (t := t) M.
    Proof.
      split; [|intros HL; exact (algorithm_1_accepts HF Ht HL)].
      intros Hacc. unfold left_krylov. apply (nonsingular_transpose HF t (fun j k => mat_pow t M k 0 j)). intros c Hc.
      assert (P : forall n, n <= t -> (forall j, j < t -> n <= j -> c j = f0) -> forall j, j < t -> c j = f0).
      { induction n as [|r IH]; intros Hn Hz; [intros j Hj; apply Hz; [exact Hj|lia]|].
        destruct (feq_dec HF (c r) f0) as [E|E].
        { apply IH; [lia|]. intros j Hj Hrj. destruct (Nat.eq_dec j r) as [->|N]; [exact E|apply Hz; lia]. }
        exfalso.
        assert (Comb : forall x : vec, sumn (S r) (fun k => fmul (c k) (obs k x)) = f0).
        { intros x. transitivity (sumn t (fun k => fmul (c k) (obs k x))).
          - assert (Et : forall f : nat -> F, sumn t f = sumn (S r + (t - S r)) f) by (intros f; f_equal; lia). rewrite Et, (sumn_split HF).
            rewrite (sumn_zero HF (t - S r)); [ring|]. intros k Hk. rewrite Hz by lia. ring.
          - transitivity (sumn t (fun j => fmul (sumn t (fun k => fmul (mat_pow t M k 0 j) (c k))) (vc x j))).
            + transitivity (sumn t (fun k => sumn t (fun j => fmul (fmul (mat_pow t M k 0 j) (c k)) (vc x j)))).
              * apply sumn_ext. intros k Hk. rewrite (obs_sum HF Ht), <- (sumn_mul_l HF). apply sumn_ext. intros j Hj. ring.
              * rewrite (sumn_swap HF). apply sumn_ext. intros j Hj. apply (sumn_mul_r HF).
            + apply (sumn_zero HF). intros j Hj. rewrite Hc by exact Hj. ring. }
        assert (Hr : 1 <= r).
        { destruct r as [|r]; [|lia]. exfalso. apply E. specialize (Comb (unit_vec 0)). cbn [sumn] in Comb. unfold ProofSubspace.obs in Comb. cbn [iter] in Comb.
          unfold unit_vec in Comb. rewrite vc_mk in Comb by lia. cbn [Nat.eqb] in Comb. rewrite <- Comb. ring. }
        revert Hacc. apply (invariant_rejected r); [exact Hr| |lia].
        - intros x Hx. specialize (Comb x). change (sumn (S r) ?f) with (fadd (sumn r f) (f r)) in Comb. cbv beta in Comb.
          rewrite (sumn_zero HF r) in Comb by (intros k Hk; rewrite Hx by exact Hk; ring).
          transitivity (fmul (fmul (finv (c r)) (c r)) (obs r x)); [rewrite (ff_inv _ HF _ E); ring|].
          transitivity (fmul (finv (c r)) (fadd f0 (fmul (c r) (obs r x)))); [ring|]. rewrite Comb. ring. }
      exact (P t (le_n t) ltac:(intros; lia)).
    Qed.

    (** ** algorithm_2 *)
    Let e0 : vec := unit_vec 0.
    Let poly (u : list F) : Prop := length u = t /\ exists g, act (mop M) g e0 = to_vec u.

    Lemma short_poly g : exists c, length c = t /\ act (mop M) c e0 = act (mop M) g e0.
    Proof.
      destruct (monic_relation e0) as [c0 [Lc0 [Nc0 Hc0]]]. destruct (split_leading HF c0 Nc0) as [h [a [n [-> Ha]]]].
      rewrite (act_leading HF (vec_module HF) (mop_linear HF M)) in Hc0 by exact Ha. set (q := map (fmul (finv a)) h) in *.
      assert (Hq : act (mop M) (q ++ [f1]) e0 = vz).
      { apply vec_ext. intros i Hi. pose proof (f_equal (fun v => vc v i) Hc0) as E. cbv beta in E. unfold vsc, vz in E. rewrite !vc_mk in E by exact Hi.
        unfold vz. rewrite vc_mk by exact Hi. set (z := vc _ i) in *.
        transitivity (fmul (fmul (finv a) a) z); [rewrite (ff_inv _ HF a Ha); ring|]. transitivity (fmul (finv a) (fmul a z)); [ring|]. rewrite E. ring. }
      assert (Lq : length q <= t) by (unfold q; rewrite map_length; rewrite app_length in Lc0; cbn [length] in Lc0; rewrite repeat_length in Lc0; lia).
      assert (Nq : q <> []).
      { intros E. rewrite E in Hq. cbn [app] in Hq. rewrite (act_1 HF (vec_module HF) (mop_linear HF M)) in Hq. revert Hq. apply (unit_vec_neq HF). lia. }
      assert (P : forall g, exists c, length c = length q /\ act (mop M) c e0 = act (mop M) g e0).
      { clear g. induction g as [|b g [c [Lc IH]]].
        - exists (repeat f0 (length q)). split; [apply repeat_length|]. apply (act_zeros HF (vec_module HF) (mop_linear HF M)).
        - assert (Nc : c <> []) by (intros ->; destruct q; [contradiction|discriminate]).
          destruct q as [|q0 q']; [contradiction|]. set (q := q0 :: q') in *.
          exists (psubs (fopp f1) (xmod q c) (b :: repeat f0 (length q'))).
          assert (Lx : length (xmod q c) = length (b :: repeat f0 (length q'))).
          { rewrite xmod_length by assumption. cbn [length]. rewrite repeat_length. reflexivity. }
          split; [rewrite psubs_length by exact Lx; apply xmod_length; assumption|].
          rewrite (act_psubs HF (vec_module HF) (mop_linear HF M)) by exact Lx. rewrite (act_xmod HF (vec_module HF) (mop_linear HF M)) by assumption.
          rewrite IH. cbn [LinOp.act]. rewrite (act_zeros HF (vec_module HF) (mop_linear HF M)), (lin_z HF (vec_module HF) (mop_linear HF M)).
          apply vec_ext. intros i Hi. unfold vsub, vadd, vsc, vz. rewrite !vc_mk by exact Hi. ring. }
      destruct (P g) as [c [Lc Ec]]. exists (c ++ repeat f0 (t - length c)). split; [rewrite app_length, repeat_length; lia|].
      rewrite (act_app HF (vec_module HF) (mop_linear HF M)), (act_zeros HF (vec_module HF) (mop_linear HF M)).
      rewrite iter_fix by apply (lin_z HF (vec_module HF) (mop_linear HF M)). rewrite (vadd_0_r HF (vec_module HF)). exact Ec.
    Qed.

    Lemma poly_span (X : space) : (forall x, X x -> poly x) -> forall x, span t X x -> poly x.
    Proof.
      intros HX x H. induction H as [|a y v Hy Hv [Lv [g Hg]]].
      - split; [apply repeat_length|]. exists []. cbn [LinOp.act]. apply vec_eq. cbn [vz mkvec proj1_sig to_vec]. apply map_ext. intros i. symmetry. apply nth_repeat.
      - destruct (HX y Hy) as [Ly [h Hh]]. split; [rewrite map_length, seq_length; reflexivity|].
        exists (paddl (map (fmul a) h) g). rewrite (act_paddl HF _ (mop_linear HF M)), (act_scale HF (vec_module HF) (mop_linear HF M)), Hg, Hh.
        apply vec_ext. intros i Hi. unfold vadd, vsc, to_vec. rewrite !vc_mk by exact Hi.
        rewrite (nth_map_d _ _ i 0) by (rewrite seq_length; exact Hi). rewrite seq_nth by exact Hi. reflexivity.
    Qed.

    Lemma poly_right : (forall x, length x = t -> poly x) -> right_krylov (t := t) M.
    Proof.
      intros All.
      unfold right_krylov. apply (nonsingular_transpose HF t (fun j i => vc (iter j (mop M) e0) i)). intros y Hy i Hi.
      destruct (All (basis_vector t i) ltac:(unfold basis_vector; rewrite map_length, seq_length; reflexivity)) as [_ [g Hg]].
      destruct (short_poly g) as [c [Lc Hc]]. rewrite Hg in Hc.
      transitivity (sumn t (fun l => fmul (y l) (vc (act (mop M) c e0) l))).
      - rewrite Hc. rewrite (sumn_single HF t i); [unfold to_vec; rewrite vc_mk by exact Hi; rewrite basis_vector_nth, Nat.eqb_refl by exact Hi; ring|exact Hi|].
        intros l Hl N. unfold to_vec. rewrite vc_mk by exact Hl. rewrite basis_vector_nth by exact Hl. destruct (Nat.eqb_spec l i); [contradiction|ring].
      - transitivity (sumn t (fun l => sumn t (fun k => fmul (nth k c f0) (fmul (vc (iter k (mop M) e0) l) (y l))))).
        + apply sumn_ext. intros l Hl. rewrite (act_vc HF _ (mop_linear HF M)), Lc, <- (sumn_mul_l HF) by exact Hl. apply sumn_ext. intros k Hk. ring.
        + rewrite (sumn_swap HF). apply (sumn_zero HF). intros k Hk. rewrite (sumn_mul_l HF), Hy by exact Hk. ring.
    Qed.

    Theorem algorithm_2_iff : algorithm_2 M t <-> right_krylov (t := t) M.
    Proof.
      split; [|intros HR; exact (algorithm_2_accepts HF Ht HR)].
      intros Hacc. assert (All : forall x, length x = t -> poly x).
      { unfold algorithm_2 in Hacc. set (full := span t _) in Hacc.
        assert (Hfull : forall x, length x = t -> full x).
        { intros x Lx. pose proof (tail_span HF Ht (f0 :: tl x) ltac:(destruct x; cbn in *; lia) eq_refl) as Q.
          assert (Q' : full (f0 :: tl x)).
          { clear - Q. induction Q as [|a y v Hy Hv IH]; [apply span_zero|]. apply span_more; [right; exact Hy|exact IH]. }
          pose proof (span_more t _ (nth 0 x f0) (basis_vector t 0) _ (or_introl eq_refl) Q') as R. eapply eq_ind; [exact R|].
          etransitivity; [|symmetry; apply (list_as_map f0)]. rewrite Lx. apply map_ext_in. intros i Hi. apply in_seq in Hi.
          rewrite basis_vector_nth by lia. destruct i as [|i]; cbn [Nat.eqb nth]; [ring|]. destruct x; [cbn in Lx; lia|]. cbn [tl nth]. ring. }
        assert (B0 : poly (basis_vector t 0)).
        { assert (Lb : length (basis_vector (F := F) t 0) = t) by (unfold basis_vector; rewrite map_length, seq_length; reflexivity).
          split; [exact Lb|]. exists [f1]. rewrite (act_1 HF (vec_module HF) (mop_linear HF M)).
          apply vec_eq. symmetry. exact (to_vec_list (basis_vector t 0) Lb). }
        assert (P : forall IS v, algorithm_2_loop M t full IS v -> (forall x, IS x -> poly x) -> poly v -> forall x, length x = t -> poly x).
        { clear Hacc. intros IS v H. induction H as [IS v v' IS' E|IS v v' IS' E|IS v v' IS' _ _ IH]; intros HI Hv.
          all: assert (Hv' : poly v') by (destruct Hv as [Lv [g Hg]]; split; [apply mat_apply_length|];
            exists (f0 :: g); cbn [LinOp.act]; rewrite Hg, (vm_sc0 _ _ _ _ (vec_module HF)), (vm_0 _ _ _ _ (vec_module HF));
            apply vec_eq; rewrite mop_list, (to_vec_list v Lv); symmetry; apply to_vec_list; apply mat_apply_length).
          all: assert (HI' : forall x, IS' x -> poly x) by (apply poly_span; intros x [Hx| ->]; [apply HI, Hx|exact Hv']).
          - intros x Lx. apply HI', E, Lx.
          - exfalso. apply E. intros x. split; [intros [Hx _]; exact Hx|]. intros Hx. split; [exact Hx|]. apply Hfull. apply (HI' x Hx).
          - apply IH; assumption. }
        apply (P _ _ Hacc); [|exact B0]. apply poly_span. intros x ->. exact B0. }
      exact (poly_right All).
    Qed.
  End M.

  Lemma right_krylov_powers (M : @mat F) r : 2 <= t -> right_krylov (t := t) (mat_pow t M r) -> right_krylov (t := t) M.
  Proof.
    intros Ht HR. apply (poly_right Ht). intros x Lx. split; [exact Lx|].
    destruct (comb_all HF Ht HR x Lx) as [_ [c Hc]]. replace (S (t - 1)) with t in Hc by lia.
    assert (P : forall n, exists g, act (mop M) g (unit_vec 0 : vec) = mkvec (fun i => sumn n (fun l => fmul (c l) (vc (iter l (mop (mat_pow t M r)) (unit_vec 0 : vec)) i)))).
    { induction n as [|n [g IH]]; [exists []; reflexivity|].
      exists (paddl g (repeat f0 (r * n) ++ [c n])). rewrite (act_paddl HF _ (mop_linear HF M)), IH, (act_app HF (vec_module HF) (mop_linear HF M)).
      rewrite (act_zeros HF (vec_module HF) (mop_linear HF M)), repeat_length, (act_single HF (vec_module HF) (mop_linear HF M)).
      apply vec_ext. intros i Hi. unfold vadd at 1. rewrite !vc_mk by exact Hi. change (sumn (S n) ?f) with (fadd (sumn n f) (f n)). cbv beta. f_equal.
      unfold vadd. rewrite vc_mk by exact Hi. unfold vz. rewrite vc_mk by exact Hi.
      rewrite (proj2 (iter_linear HF (vec_module HF) (mop_linear HF M) (r * n))). unfold vsc. rewrite vc_mk by exact Hi.
      rewrite Nat.mul_comm, iter_mul. rewrite (iter_ext (iter r (mop M)) (mop (mat_pow t M r))) by (intros v; symmetry; apply (mop_pow HF)). ring. }
    destruct (P t) as [g Hg]. exists g. rewrite Hg. apply vec_ext. intros i Hi. unfold to_vec. rewrite !vc_mk by exact Hi. symmetry. apply Hc. exact Hi.
  Qed.

  Theorem algorithm_3_iff (M : @mat F) : 2 <= t -> algorithm_3 M t <-> forall r, 2 <= r <= 4 * t -> right_krylov (t := t) (mat_pow t M r).
  Proof.
    intros Ht. unfold algorithm_3. split; intros H r Hr.
    - apply (algorithm_2_iff Ht). apply H. lia.
    - apply (algorithm_2_iff Ht). apply H. lia.
  Qed.
End SubspaceIff.
