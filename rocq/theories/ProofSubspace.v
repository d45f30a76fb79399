(** * ProofSubspace: when the three algorithms of the script accept a matrix

    The Krylov rows e_0^T M^k (k < t) decide algorithm_1, the Krylov columns M^(rk) e_0 decide algorithm_2 and 3. *)
From Verif Require Import Base Field Spec SpecPoseidon SpecMinPoly LinAlg FieldPow LinOp Vec ModelSubspace Elim.
Local Open Scope nat_scope.

Section Subspace.
  Context {F : Type} {Fo : FOps F} (HF : is_field Fo) {t : nat}.
  Add Ring FringSS : (ff_ring _ HF).

  Definition left_krylov (M : @mat F) : Prop := nonsingular t (fun k j => mat_pow t M k 0 j).
  Definition right_krylov (M : @mat F) : Prop := nonsingular t (fun i j => vc (iter j (mop (t := t) M) (unit_vec 0)) i).

  Definition to_vec (x : list F) : vec F t := mkvec (fun i => nth i x f0).
  Lemma to_vec_list x : length x = t -> proj1_sig (to_vec x) = x.
  Proof. intros Hx. unfold to_vec, mkvec. cbn [proj1_sig]. rewrite <- Hx. symmetry. apply list_as_map. Qed.
  Lemma to_vec_z x : length x = t -> to_vec x = vz -> x = repeat f0 t.
  Proof. intros Hx E. rewrite <- (to_vec_list x Hx), E. apply map_const_repeat. Qed.

  Section M.
    Context {M : @mat F}.
    (** element 0 after k steps *)
    Definition obs (k : nat) (x : vec F t) : F := vc (iter k (mop M) x) 0.

    Context (Ht : 2 <= t).
    Lemma obs_sum k x : obs k x = sumn t (fun j => fmul (mat_pow t M k 0 j) (vc x j)).
    Proof. unfold obs. rewrite <- (mop_pow HF). unfold mop. apply (vc_mk (fun i => sumn t (fun j => fmul (mat_pow t M k i j) (vc x j))) 0). lia. Qed.

    Section Left.
      Context (HL : left_krylov M).
      Lemma obs_zero x : (forall k, k < t -> obs k x = f0) -> x = vz.
      Proof.
        intros H. apply vec_ext. intros j Hj. transitivity f0; [|symmetry; exact (vc_mk (fun _ => f0) j Hj)].
        apply (HL (vc x)); [|exact Hj]. intros k Hk. rewrite <- obs_sum. apply H, Hk.
      Qed.
      Lemma obs_exists i : i < t -> exists x, forall k, k < t -> obs k x = if k =? i then f1 else f0.
      Proof.
        intros Hi. destruct (nonsingular_invertible HF t _ HL) as [B [HB _]]. exists (mkvec (fun j => B j i)). intros k Hk.
        rewrite obs_sum. transitivity (mat_mul t (fun k j => mat_pow t M k 0 j) B k i).
        - unfold mat_mul. apply sumn_ext. intros j Hj. rewrite vc_mk by exact Hj. reflexivity.
        - rewrite HB by assumption. reflexivity.
      Qed.

      (** ** algorithm_1 *)
      Lemma span_in (X : space) x : X x -> length x = t -> span t X x.
      Proof.
        intros Hx Lx. replace x with (map (fun i => fadd (fmul f1 (nth i x f0)) (nth i (repeat f0 t) f0)) (seq 0 t)).
        - apply span_more; [exact Hx|apply span_zero].
        - etransitivity; [|symmetry; apply (list_as_map f0)]. rewrite Lx. apply map_ext. intros i. rewrite nth_repeat. ring.
      Qed.
      Lemma basis_vector_nth i k : k < t -> nth k (basis_vector t i) f0 = if k =? i then f1 else (f0 : F).
      Proof. intros Hk. unfold basis_vector. rewrite (nth_map_d _ _ k 0) by (rewrite seq_length; exact Hk). rewrite seq_nth by exact Hk. reflexivity. Qed.

      Lemma tail_span x : length x = t -> nth 0 x f0 = f0 -> span t (fun y => exists i, 1 <= i < t /\ y = basis_vector t i) x.
      Proof.
        intros Lx H0.
        assert (P : forall n, n < t -> span t (fun y => exists i, 1 <= i < t /\ y = basis_vector t i)
                       (map (fun k => if k <? S n then nth k x f0 else f0) (seq 0 t))).
        { induction n as [|n IH]; intros Hn.
          - replace (map _ (seq 0 t)) with (repeat (f0 (F := F)) t); [apply span_zero|].
            rewrite <- (map_const_repeat f0 t 0). apply map_ext. intros k. destruct (Nat.ltb_spec k 1); [|reflexivity].
            replace k with 0 by lia. symmetry. exact H0.
          - specialize (IH ltac:(lia)).
            pose proof (span_more t _ (nth (S n) x f0) (basis_vector t (S n)) _ (ex_intro _ (S n) (conj (conj (le_n_S 0 n (Nat.le_0_l n)) Hn) eq_refl)) IH) as Q.
            eapply eq_ind; [exact Q|]. apply map_ext_in. intros k Hk. apply in_seq in Hk. rewrite basis_vector_nth by lia.
            rewrite (nth_map_d _ _ k 0) by (rewrite seq_length; lia). rewrite seq_nth by lia. cbn [Nat.add].
            destruct (Nat.eqb_spec k (S n)) as [->|N].
            + replace (S n <? S n) with false by (symmetry; apply Nat.ltb_ge; lia). replace (S n <? S (S n)) with true by (symmetry; apply Nat.ltb_lt; lia). ring.
            + destruct (Nat.ltb_spec k (S n)); destruct (Nat.ltb_spec k (S (S n))); try lia; ring. }
        specialize (P (t - 1) ltac:(lia)). eapply eq_ind; [exact P|]. etransitivity; [|symmetry; apply (list_as_map f0)]. rewrite Lx.
        apply map_ext_in. intros k Hk. apply in_seq in Hk. replace (k <? S (t - 1)) with true by (symmetry; apply Nat.ltb_lt; lia). reflexivity.
      Qed.

      Lemma vectorspace_iff i x : 1 <= i -> generate_vectorspace i (fun j => mat_pow t M (j + 1)) t x <->
        length x = t /\ forall k, k < i -> obs k (to_vec x) = f0.
      Proof.
        intros Hi. assert (E0 : length x = t -> obs 0 (to_vec x) = nth 0 x f0).
        { intros Lx. unfold obs. cbn [iter]. unfold to_vec. rewrite vc_mk by lia. reflexivity. }
        destruct i as [|[|i]]; [lia| |].
        - cbn [generate_vectorspace]. split.
          + intros H. assert (G : length x = t /\ nth 0 x f0 = f0).
            { clear E0. induction H as [|a y v [l [Hl ->]] H [IL I0]]; [split; [apply repeat_length|apply nth_repeat]|].
              split; [rewrite map_length, seq_length; reflexivity|].
              rewrite (nth_map_d _ _ 0 0) by (rewrite seq_length; lia). rewrite seq_nth by lia. cbn [Nat.add].
              rewrite basis_vector_nth by lia. destruct (Nat.eqb_spec 0 l); [lia|]. rewrite I0. ring. }
            destruct G as [L G]. split; [exact L|]. intros k Hk. replace k with 0 by lia. rewrite (E0 L). exact G.
          + intros [L H]. apply tail_span; [exact L|]. rewrite <- (E0 L). apply H. lia.
        - cbn [generate_vectorspace].
          assert (ES : forall k, length x = t -> nth 0 x f0 = f0 ->
            obs (S k) (to_vec x) = sumn (t - 1) (fun j => fmul (mat_pow t M (k + 1) 0 (S j)) (nth (S j) x f0))).
          { intros k L Z. rewrite obs_sum. replace (k + 1) with (S k) by lia.
            replace (sumn t (fun j => fmul (mat_pow t M (S k) 0 j) (vc (to_vec x) j))) with
              (sumn (S (t - 1)) (fun j => fmul (mat_pow t M (S k) 0 j) (vc (to_vec x) j))) by (f_equal; lia).
            rewrite (sumn_first HF). unfold to_vec at 1. rewrite vc_mk by lia. rewrite Z.
            transitivity (sumn (t - 1) (fun j => fmul (mat_pow t M (S k) 0 (S j)) (vc (to_vec x) (S j)))); [ring|].
            apply sumn_ext. intros j Hj. unfold to_vec. rewrite vc_mk by lia. reflexivity. }
          split.
          + intros [L [Z H]]. split; [exact L|]. intros [|k] Hk; [rewrite (E0 L); exact Z|]. rewrite ES by assumption. apply H. lia.
          + intros [L H]. assert (Z : nth 0 x f0 = f0) by (rewrite <- (E0 L); apply H; lia). split; [exact L|]. split; [exact Z|].
            intros k Hk. rewrite <- ES by assumption. apply H. lia.
      Qed.

      Lemma obs_iter k n x : obs k (iter n (mop M) x) = obs (k + n) x.
      Proof. unfold obs. rewrite <- iter_add. reflexivity. Qed.

      Theorem algorithm_1_accepts : algorithm_1 M t.
      Proof.
        intros i Hi mat_test mat_target S IS. split; [|split].
        - (* M^i is not a multiple of the identity *)
          intros E. destruct (obs_exists i ltac:(lia)) as [x Hx].
          assert (Ei : obs i x = fmul (mat_test 0 0) (obs 0 x)).
          { rewrite (obs_sum i). transitivity (sumn t (fun j => if j =? 0 then fmul (mat_test 0 0) (vc x 0) else f0)).
            - apply sumn_ext. intros j Hj. specialize (E 0 j ltac:(lia) Hj). unfold mat_target in E.
              assert (C : forall v : list F, length v = t -> entry (matrix_circulant v) 0 j = nth j v f0).
              { intros v Lv. unfold entry, matrix_circulant. rewrite Lv. rewrite (nth_map_d _ _ 0 0) by (rewrite seq_length; lia).
                rewrite seq_nth by lia. rewrite (nth_map_d _ _ j 0) by (rewrite seq_length; lia). rewrite seq_nth by lia. cbn [Nat.add].
                f_equal. replace (j + t - 0) with (j + 1 * t) by lia. rewrite Nat.mod_add by lia. apply Nat.mod_small. exact Hj. }
              rewrite !C in E by (cbn [length]; rewrite repeat_length; lia). rewrite nth_repeat in E. fold mat_test.
              assert (E' : mat_test 0 j = nth j (mat_test 0 0 :: repeat f0 (t - 1)) f0).
              { apply (fsub_eq_0 HF). exact E. }
              rewrite E'. destruct j as [|j]; cbn [nth Nat.eqb]; [reflexivity|]. rewrite nth_repeat. ring.
            - rewrite (sumn_single HF t 0); [reflexivity|lia|]. intros j Hj N. destruct j; [contradiction|reflexivity]. }
          rewrite (Hx i), (Hx 0), Nat.eqb_refl in Ei by lia. destruct (Nat.eqb_spec 0 i); [lia|].
          apply (ff_one_neq_zero _ HF). rewrite Ei. ring.
        - (* no eigenvector of M^i in S *)
          intros [[v [Hv Nv]] _]. apply Nv. clear Nv. unfold IS, eigen_part in Hv.
          induction Hv as [|a x v [HS [lambda HE]] Hv IH]; [reflexivity|].
          apply vectorspace_iff in HS; [|lia]. destruct HS as [Lx Ox].
          assert (Ex : iter i (mop M) (to_vec x) = vsc lambda (to_vec x)).
          { rewrite <- (mop_pow HF). apply vec_eq. rewrite mop_list, (to_vec_list x Lx). fold mat_test. rewrite HE. unfold vsc, mkvec. cbn [proj1_sig].
            apply map_ext_in. intros k Hk. apply in_seq in Hk. unfold to_vec. rewrite vc_mk by lia. reflexivity. }
          assert (All : forall k, obs k (to_vec x) = f0).
          { intros k. induction k as [k IHk] using lt_wf_ind. destruct (Nat.lt_ge_cases k i) as [L|L]; [apply Ox, L|].
            replace k with (k - i + i) by lia. rewrite <- obs_iter, Ex. unfold obs.
            rewrite (proj2 (iter_linear HF (vec_module HF) (mop_linear HF M) (k - i))). unfold vsc. rewrite vc_mk by lia.
            change (fmul lambda (obs (k - i) (to_vec x)) = f0). rewrite IHk by lia. ring. }
          assert (Zx : x = repeat f0 t) by (apply to_vec_z; [exact Lx|]; apply obs_zero; intros k _; apply All).
          rewrite Zx, IH. transitivity (map (fun _ : nat => f0 (F := F)) (seq 0 t)); [|apply map_const_repeat].
          apply map_ext. intros k. rewrite nth_repeat. ring.
        - (* S is not mapped onto itself by M^j *)
          intros j Hj E. destruct (obs_exists i ltac:(lia)) as [x Hx].
          assert (HS : forall n, S (proj1_sig (iter n (iter j (mop M)) x))).
          { assert (TV : forall y : vec F t, to_vec (proj1_sig y) = y) by (intros y; apply vec_eq, to_vec_list, vec_length).
            induction n as [|n IH].
            - apply vectorspace_iff; [lia|]. split; [apply vec_length|]. intros k Hk. rewrite TV. cbn [iter]. rewrite Hx by lia.
              destruct (Nat.eqb_spec k i); [lia|reflexivity].
            - apply E. apply span_in; [|apply vec_length]. exists (proj1_sig (iter n (iter j (mop M)) x)). split; [exact IH|].
              rewrite <- mop_list, (mop_pow HF). reflexivity. }
          assert (O : obs i x = f0).
          { rewrite (Nat.div_mod i j) by lia. rewrite Nat.mul_comm, Nat.add_comm. rewrite <- obs_iter, iter_mul.
            assert (TV : forall y : vec F t, to_vec (proj1_sig y) = y) by (intros y; apply vec_eq, to_vec_list, vec_length).
            specialize (HS (i / j)). apply vectorspace_iff in HS; [|lia]. rewrite <- (TV (iter (i / j) (iter j (mop M)) x)).
            apply (proj2 HS). pose proof (Nat.mod_upper_bound i j ltac:(lia)). lia. }
          rewrite Hx, Nat.eqb_refl in O by lia. apply (ff_one_neq_zero _ HF). exact O.
      Qed.
    End Left.

    (** ** algorithm_2 *)
    Section Right.
      Context (HR : right_krylov M).
      Let w (l : nat) : vec F t := iter l (mop M) (unit_vec 0).
      Definition comb (k : nat) (x : list F) : Prop :=
        length x = t /\ exists c, forall i, i < t -> nth i x f0 = sumn (S k) (fun l => fmul (c l) (vc (w l) i)).

      Lemma comb_grow (IS : space) k : (forall x, IS x <-> comb k x) ->
        forall x, span t (fun y => IS y \/ y = proj1_sig (w (S k))) x <-> comb (S k) x.
      Proof.
        intros HI x. split.
        - intros H. induction H as [|a y v Hy Hv [Lv [c Hc]]].
          + split; [apply repeat_length|]. exists (fun _ => f0). intros i Hi. rewrite nth_repeat. symmetry. apply (sumn_zero HF). intros l _. ring.
          + split; [rewrite map_length, seq_length; reflexivity|].
            assert (G : exists b, forall i, i < t -> nth i y f0 = sumn (S (S k)) (fun l => fmul (b l) (vc (w l) i))).
            { destruct Hy as [Hy| ->].
              - apply HI in Hy. destruct Hy as [_ [b Hb]]. exists (fun l => if l =? S k then f0 else b l). intros i Hi.
                change (sumn (S (S k)) ?f) with (fadd (sumn (S k) f) (f (S k))). cbv beta. rewrite Nat.eqb_refl, Hb by exact Hi.
                transitivity (sumn (S k) (fun l => fmul (if l =? S k then f0 else b l) (vc (w l) i))); [|ring].
                apply sumn_ext. intros l Hl. destruct (Nat.eqb_spec l (S k)); [lia|reflexivity].
              - exists (fun l => if l =? S k then f1 else f0). intros i Hi. change (nth i (proj1_sig (w (S k))) f0) with (vc (w (S k)) i).
                symmetry. rewrite (sumn_single HF (S (S k)) (S k)); [rewrite Nat.eqb_refl; ring|lia|].
                intros l Hl N. destruct (Nat.eqb_spec l (S k)); [contradiction|ring]. }
            destruct G as [b Hb]. exists (fun l => fadd (fmul a (b l)) (c l)). intros i Hi.
            rewrite (nth_map_d _ _ i 0) by (rewrite seq_length; exact Hi). rewrite seq_nth by exact Hi. cbn [Nat.add].
            rewrite Hb, Hc, <- (sumn_mul_l HF), <- (sumn_add HF) by exact Hi. apply sumn_ext. intros l _. ring.
        - intros [Lx [c Hc]].
          set (y := map (fun i => sumn (S k) (fun l => fmul (c l) (vc (w l) i))) (seq 0 t)).
          assert (Ny : forall i, i < t -> nth i y f0 = sumn (S k) (fun l => fmul (c l) (vc (w l) i))).
          { intros i Hi. unfold y. rewrite (nth_map_d _ _ i 0) by (rewrite seq_length; exact Hi). rewrite seq_nth by exact Hi. reflexivity. }
          assert (Ly : length y = t) by (unfold y; rewrite map_length, seq_length; reflexivity).
          assert (Hy : IS y) by (apply HI; split; [exact Ly|]; exists c; exact Ny).
          pose proof (span_more t (fun y => IS y \/ y = proj1_sig (w (S k))) (c (S k)) (proj1_sig (w (S k))) y (or_intror eq_refl) (span_in _ y (or_introl Hy) Ly)) as Q.
          eapply eq_ind; [exact Q|]. etransitivity; [|symmetry; apply (list_as_map f0)]. rewrite Lx. apply map_ext_in. intros i Hi. apply in_seq in Hi.
          rewrite Hc, Ny by lia. change (nth i (proj1_sig (w (S k))) f0) with (vc (w (S k)) i).
          change (sumn (S (S k)) ?f) with (fadd (sumn (S k) f) (f (S k))). cbv beta. ring.
      Qed.
      Lemma comb_all x : length x = t -> comb (t - 1) x.
      Proof.
        intros Lx. split; [exact Lx|]. destruct (nonsingular_invertible HF t _ HR) as [B [HB _]].
        exists (fun l => sumn t (fun j => fmul (B l j) (nth j x f0))). intros i Hi. replace (S (t - 1)) with t by lia.
        transitivity (sumn t (fun j => fmul (mat_mul t (fun i j => vc (w j) i) B i j) (nth j x f0))).
        - transitivity (sumn t (fun j => fmul (mat_id i j) (nth j x f0))).
          + rewrite (sumn_single HF t i); [unfold mat_id; rewrite Nat.eqb_refl; ring|exact Hi|].
            intros j Hj N. unfold mat_id. destruct (Nat.eqb_spec i j); [congruence|]. ring.
          + apply sumn_ext. intros j Hj. rewrite HB by assumption. reflexivity.
        - unfold mat_mul. transitivity (sumn t (fun j => sumn t (fun k => fmul (fmul (vc (w k) i) (B k j)) (nth j x f0)))).
          { apply sumn_ext. intros j Hj. symmetry. apply (sumn_mul_r HF). }
          rewrite (sumn_swap HF). apply sumn_ext. intros k Hk. rewrite <- (sumn_mul_r HF). apply sumn_ext. intros j Hj. ring.
      Qed.
      Lemma comb_new k : S k < t -> ~ comb k (proj1_sig (w (S k))).
      Proof.
        intros Hk [_ [c Hc]]. apply (ff_one_neq_zero _ HF).
        assert (Z : (fun l => if l <? S k then c l else if l =? S k then fopp f1 else f0) (S k) = (f0 : F)).
        { apply (HR (fun l => if l <? S k then c l else if l =? S k then fopp f1 else f0)); [|exact Hk].
          intros i Hi. assert (Et : forall f : nat -> F, sumn t f = sumn (S k + S (t - S (S k))) f) by (intros f; f_equal; lia). rewrite Et, (sumn_split HF), (sumn_first HF (t - S (S k))).
          rewrite (sumn_zero HF (t - S (S k))).
          - rewrite Nat.add_0_r. replace (S k <? S k) with false by (symmetry; apply Nat.ltb_ge; lia). rewrite Nat.eqb_refl.
            specialize (Hc i Hi). change (nth i (proj1_sig (w (S k))) f0) with (vc (w (S k)) i) in Hc. change (iter (S k) (mop M) (unit_vec 0)) with (w (S k)). rewrite Hc.
            transitivity (fsub (sumn (S k) (fun l => fmul (c l) (vc (w l) i))) (sumn (S k) (fun l => fmul (c l) (vc (w l) i)))); [|ring].
            transitivity (fadd (sumn (S k) (fun l => fmul (c l) (vc (w l) i))) (fmul (fopp f1) (sumn (S k) (fun l => fmul (c l) (vc (w l) i))))); [|ring].
            assert (Eq : sumn (S k) (fun j => fmul (vc (w j) i) (if j <? S k then c j else if j =? S k then fopp f1 else f0)) =
                    sumn (S k) (fun l => fmul (c l) (vc (w l) i))).
            { apply sumn_ext. intros l Hl. replace (l <? S k) with true by (symmetry; apply Nat.ltb_lt; lia). unfold w. ring. }
            unfold w in Eq |- *. rewrite Eq. ring.
          - intros l Hl. replace (S k + S l <? S k) with false by (symmetry; apply Nat.ltb_ge; lia).
            destruct (Nat.eqb_spec (S k + S l) (S k)); [lia|]. ring. }
        cbv beta in Z. replace (S k <? S k) with false in Z by (symmetry; apply Nat.ltb_ge; lia). rewrite Nat.eqb_refl in Z.
        transitivity (fopp (fopp (f1 (F := F)))); [ring|]. rewrite Z. ring.
      Qed.

      Theorem algorithm_2_accepts : algorithm_2 M t.
      Proof.
        unfold algorithm_2. set (full := span t _).
        assert (P : forall n k (IS : space), t - 1 - k = n -> S k < t -> (forall x, IS x <-> comb k x) ->
          algorithm_2_loop M t full IS (proj1_sig (w k))).
        { induction n as [|n IH]; intros k IS En Hk HI; [lia|].
          assert (Ew : mat_apply t t M (proj1_sig (w k)) = proj1_sig (w (S k))) by (rewrite <- mop_list; reflexivity).
          pose proof (comb_grow IS k HI) as G. destruct (Nat.eq_dec (S k) (t - 1)) as [E|N].
          - apply alg2_full. rewrite Ew. intros x. rewrite (G x), E. split; [intros [L _]; exact L|apply comb_all].
          - apply alg2_next; rewrite Ew.
            + intros Sub. apply (comb_new k); [lia|]. apply HI. apply Sub. apply span_in; [right; reflexivity|apply vec_length].
            + apply IH; [lia|lia|exact G]. }
        apply (P (t - 1 - 0) 0); [reflexivity|lia|]. intros x. split.
        - intros H. induction H as [|a y v -> Hv [Lv [c Hc]]].
          + split; [apply repeat_length|]. exists (fun _ => f0). intros i Hi. rewrite nth_repeat. cbn [sumn]. ring.
          + split; [rewrite map_length, seq_length; reflexivity|]. exists (fun l => fadd a (c l)). intros i Hi.
            rewrite (nth_map_d _ _ i 0) by (rewrite seq_length; exact Hi). rewrite seq_nth by exact Hi. cbn [Nat.add].
            rewrite Hc by exact Hi. cbn [sumn]. change (nth i (basis_vector t 0) f0) with (vc (w 0) i). ring.
        - intros [Lx [c Hc]]. cbn [sumn] in Hc.
          pose proof (span_more t (fun y => y = basis_vector t 0) (c 0) (basis_vector t 0) _ eq_refl (span_zero t _)) as Q.
          eapply eq_ind; [exact Q|]. etransitivity; [|symmetry; apply (list_as_map f0)]. rewrite Lx. apply map_ext_in. intros i Hi. apply in_seq in Hi.
          rewrite Hc by lia. rewrite nth_repeat. change (nth i (basis_vector t 0) f0) with (vc (w 0) i). ring.
      Qed.
    End Right.
  End M.

  Theorem algorithms_accept (M : @mat F) : 2 <= t -> left_krylov M ->
    (forall r, 1 <= r <= 4 * t -> right_krylov (mat_pow t M r)) ->
    algorithm_1 M t /\ algorithm_2 M t /\ algorithm_3 M t.
  Proof.
    intros Ht HL HR. split; [apply algorithm_1_accepts; assumption|]. split.
    - apply algorithm_2_accepts; [exact Ht|]. eapply (nonsingular_ext t); [|exact (HR 1 ltac:(lia))].
      intros i j Hi Hj. cbv beta. apply (f_equal (fun v => vc v i)). apply iter_ext. intros v. apply mop_ext. intros a b Ha Hb.
      cbn [mat_pow]. apply (mat_mul_id_r HF). exact Hb.
    - intros r Hr. apply algorithm_2_accepts; [exact Ht|]. apply HR. lia.
  Qed.
End Subspace.
