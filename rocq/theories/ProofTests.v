(** * ProofTests: outcome of the unit tests *)
From Verif Require Import Base Field Spec SpecNeptune ModelFields ModelInstances ModelKats
  ModelPoseidon2 ModelPoseidon ModelRandom ModelGmimc ModelNeptune ModelTests SpecTests.
From Verif Require ProofKats ProofKnown ProofGmimc ProofNeptuneBij ProofNeptuneFin ProofNeptuneParams ProofBenches ProofMatHelpers ProofPoseidon2Extra Bij Elim.
Local Open Scope nat_scope.

Lemma for_list_not_panic {X St} (l : list X) body (s : St) : (forall x s, In x l -> body x s <> Panic) -> for_list l body s <> Panic.
Proof.
  revert s. induction l as [|x l IH]; intros s H; cbn [for_list]; [discriminate|].
  pose proof (H x s (or_introl eq_refl)) as Hx. destruct (body x s); cbn [bind]; [apply IH; intros; apply H; right; assumption|congruence|discriminate].
Qed.
Lemma for_list_all_ok {X St} (l : list X) body (s : St) : (forall x s, In x l -> exists s', body x s = Ok s') -> exists s', for_list l body s = Ok s'.
Proof.
  revert s. induction l as [|x l IH]; intros s H; cbn [for_list]; [eauto|].
  destruct (H x s (or_introl eq_refl)) as [s' ->]. cbn [bind]. apply IH. intros; apply H; right; assumption.
Qed.
Lemma mapM_all {X Y} (f : X -> res Y) (Q : X -> Y -> Prop) l : (forall x, In x l -> exists y, f x = Ok y /\ Q x y) ->
  exists ys, mapM f l = Ok ys /\ Forall2 Q l ys.
Proof.
  induction l as [|x l IH]; intros H; cbn [mapM]; [exists []; split; [reflexivity|constructor]|].
  destruct (H x (or_introl eq_refl)) as [y [-> Hy]]. destruct IH as [ys [-> Hys]]; [intros; apply H; right; assumption|].
  cbn [bind]. eexists. split; [reflexivity|]. constructor; assumption.
Qed.
Lemma mapM_Forall2 {X Y} (f : X -> res Y) l ys : mapM f l = Ok ys -> Forall2 (fun x y => f x = Ok y) l ys.
Proof.
  revert ys. induction l as [|x l IH]; intros ys H; cbn [mapM] in H; [injection H as <-; constructor|].
  apply bind_ok in H. destruct H as [y [Ey H]]. apply bind_ok in H. destruct H as [ys' [Es H]]. injection H as <-. constructor; [exact Ey|apply IH, Es].
Qed.
Lemma mapM_len {X Y} (f : X -> res Y) l ys : mapM f l = Ok ys -> length ys = length l.
Proof. intros H. apply mapM_Forall2 in H. induction H; cbn [length]; [reflexivity|congruence]. Qed.
Lemma Forall2_in_r {X Y} (Q : X -> Y -> Prop) l ys y : Forall2 Q l ys -> In y ys -> exists x, In x l /\ Q x y.
Proof.
  intros H. induction H as [|x y' l ys Hq H IH]; intros Hi; [contradiction|]. destruct Hi as [<-|Hi]; [exists x; split; [left; reflexivity|exact Hq]|].
  destruct (IH Hi) as [x' [A B]]. exists x'. split; [right; exact A|exact B].
Qed.

Definition small (n : nat) : bool := (1 <=? n) && (n <=? 24).
Lemma small_ok n : small n = true -> 1 <= n <= 24.
Proof. unfold small. intros H. apply andb_true_iff in H. destruct H as [A B]. apply Nat.leb_le in A. apply Nat.leb_le in B. lia. Qed.
Lemma p2_small : forallb (fun J => small (qi_t J)) p2_instances = true. Proof. reflexivity. Qed.
Lemma ps_small : forallb (fun J => small (si_t J)) ps_instances = true. Proof. reflexivity. Qed.
Lemma gm_small : forallb (fun J => small (gi_t J)) gm_instances = true. Proof. reflexivity. Qed.
Definition np_cond (J : np_instance) : bool := small (ni_t J) && (2 <=? ni_t J) && (1 <=? ni_rp J) && (Z.gcd (Z.of_nat (ni_d J)) (ni_p J - 1) =? 1)%Z && negb (ni_p J =? 5)%Z.
Lemma np_conds : forallb np_cond np_instances = true. Proof. vm_compute. reflexivity. Qed.

(** the instances of a test are shipped, with the given modulus *)
Definition test_shipped (p : Z) (tst : test) : Prop :=
  match tst with
  | ConsistentP2 l => Forall (fun J => In J p2_instances /\ qi_p J = p) l
  | ConsistentPs l | OptPs l => Forall (fun J => In J ps_instances /\ si_p J = p) l
  | ConsistentGm l | OptGm l => Forall (fun J => In J gm_instances) l
  | ConsistentNp l => Forall (fun J => In J np_instances /\ ni_p J = p) l /\ l <> []
  | KatP2 J out => In (J, out) p2_kats /\ qi_p J = p
  | KatPs J out => In (J, out) ps_kats /\ si_p J = p
  | MatmulEqualities t => 1 <= t
  | Input24 diag mat rc bytes => diag = qi_diag POSEIDON2_BN256_PARAMS /\ mat = qi_mat POSEIDON2_BN256_PARAMS /\ rc = si_rc POSEIDON_BN_PARAMS /\
      bytes = qi_bytes POSEIDON2_BN256_PARAMS /\ p = p_bn256
  end.

Section T.
  Context {F : Type} {Fo : FOps F} {p : Z} (HP : is_prime_field Fo p).
  Let HF := prime_field_is_field HP.
  Add Ring FringTests : (ff_ring _ HF).

  Lemma vec_eqb_eq (a b : list F) : vec_eqb a b = true <-> a = b.
  Proof.
    revert b. induction a as [|x a IH]; intros [|y b]; cbn [vec_eqb]; try (split; [discriminate|discriminate]); [split; reflexivity|].
    rewrite andb_true_iff, (ff_eqb _ HF), IH. split; [intros [-> ->]; reflexivity|intros E; injection E as -> ->; auto].
  Qed.
  Lemma vec_eqb_refl a : vec_eqb a a = true. Proof. apply vec_eqb_eq. reflexivity. Qed.
  Lemma vec_eqb_neq (a b : list F) : a <> b -> vec_eqb a b = false.
  Proof. intros H. destruct (vec_eqb a b) eqn:E; [apply vec_eqb_eq in E; congruence|reflexivity]. Qed.

  Lemma draws n (rnd : nat -> F) pos : random_vec n rnd pos = (map rnd (seq pos n), pos + n).
  Proof.
    rewrite ProofNeptuneParams.random_vec_ok. f_equal. rewrite <- (map_map (fun i => pos + i) rnd). f_equal.
    clear. revert pos. induction n as [|n IH]; intros pos; [reflexivity|]. cbn [seq map]. f_equal; [lia|].
    rewrite <- (IH (S pos)), <- seq_shift, map_map. apply map_ext. intros; lia.
  Qed.

  Lemma draw_other_cases fuel t in1 (rnd : nat -> F) pos :
    (exists in2 pos', draw_other fuel t in1 rnd pos = Ok (in2, pos') /\ length in2 = t /\ in2 <> in1) \/ draw_other fuel t in1 rnd pos = Fuel.
  Proof.
    revert pos. induction fuel as [|fuel IH]; intros pos; cbn [draw_other]; [right; reflexivity|]. rewrite draws.
    destruct (vec_eqb in1 (map rnd (seq pos t))) eqn:E; cbn [negb]; [apply IH|left]. eexists. eexists. split; [reflexivity|].
    split; [rewrite map_length, seq_length; reflexivity|]. intros C. rewrite C, vec_eqb_refl in E. discriminate.
  Qed.
  Lemma draw_other_live fuel t in1 (rnd : nat -> F) pos : (exists k, k < fuel /\ in1 <> map rnd (seq (pos + k * t) t)) -> draw_other fuel t in1 rnd pos <> Fuel.
  Proof.
    revert pos. induction fuel as [|fuel IH]; intros pos [k [Hk N]]; [lia|]. cbn [draw_other]. rewrite draws.
    destruct (vec_eqb in1 (map rnd (seq pos t))) eqn:E; cbn [negb]; [|discriminate]. apply vec_eqb_eq in E.
    destruct k as [|k]; [rewrite Nat.add_0_r in N; congruence|]. apply IH. exists k. split; [lia|].
    replace (pos + t + k * t) with (pos + S k * t) by lia. exact N.
  Qed.

  Lemma consistent_ok fuel t perm (rnd : nat -> F) pos : bijective_on t perm ->
    consistent_perm fuel t perm rnd pos <> Panic /\ (1 <= t <= 24 -> lively fuel rnd -> exists pos', consistent_perm fuel t perm rnd pos = Ok pos').
  Proof.
    intros [HT [HI _]]. unfold consistent_perm, for_range.
    assert (B : forall pos : nat, let b := (let '(input1, pos0) := random_vec t rnd pos in
      '(input2, pos1) <- draw_other fuel t input1 rnd pos0;;
      perm1 <- perm input1;; perm2 <- perm input1;; perm3 <- perm input2;;
      assert (vec_eqb perm1 perm2);; assert (negb (vec_eqb perm1 perm3));; Ok pos1) in
      (exists pos', b = Ok pos') \/ (b = Fuel /\ draw_other fuel t (map rnd (seq pos t)) rnd (pos + t) = Fuel)).
    { clear pos. intros pos. cbv zeta. rewrite draws. destruct (draw_other_cases fuel t (map rnd (seq pos t)) rnd (pos + t)) as [[in2 [pos' [-> [L2 N]]]]|E].
      - left. cbn [bind]. assert (L1 : length (map rnd (seq pos t)) = t) by (rewrite map_length, seq_length; reflexivity).
        destruct (HT _ L1) as [y1 [E1 _]]. destruct (HT _ L2) as [y2 [E2 _]]. rewrite E1, E2. cbn [bind]. rewrite vec_eqb_refl. cbn [assert bind].
        rewrite vec_eqb_neq; [cbn [assert negb bind]; eauto|]. intros C. subst y2. apply N. symmetry. exact (HI _ _ _ L1 L2 E1 E2).
      - right. rewrite E. split; reflexivity. }
    cbv zeta in B. split.
    - apply for_list_not_panic. intros _ s _. destruct (B s) as [[pos' ->]|[-> _]]; discriminate.
    - intros Ht HL. apply for_list_all_ok. intros _ s _. destruct (B s) as [H|[_ H]]; [exact H|exfalso]. revert H. apply draw_other_live.
      destruct (HL t s Ht) as [k [Hk N]]. exists k. split; [exact Hk|]. replace (s + t + k * t) with (s + (1 + k) * t) by lia. exact N.
  Qed.

  Lemma opt_ok t perm perm' (rnd : nat -> F) pos : (forall x, length x = t -> exists y, perm x = Ok y /\ perm' x = Ok y) ->
    exists pos', opt_equals_not_opt t perm perm' rnd pos = Ok pos'.
  Proof.
    intros H. unfold opt_equals_not_opt, for_range. apply for_list_all_ok. intros _ s _. rewrite draws.
    destruct (H (map rnd (seq s t))) as [y [-> ->]]; [rewrite map_length, seq_length; reflexivity|]. cbn [bind]. rewrite vec_eqb_refl. cbn [assert bind]. eauto.
  Qed.

  Lemma kat_loop (l : list Z) (pre : list F) : forall n, for_list (combine (seq (length pre) (length l)) l) (fun '(i, v) (_ : nat) =>
      a <- idx (pre ++ map f_of_Z l) i ;; assert (feqb a (f_of_Z v)) ;; Ok 0) n = Ok n \/ for_list (combine (seq (length pre) (length l)) l) (fun '(i, v) (_ : nat) =>
      a <- idx (pre ++ map f_of_Z l) i ;; assert (feqb a (f_of_Z v)) ;; Ok 0) n = Ok 0.
  Proof.
    revert pre. induction l as [|v l IH]; intros pre n; [left; reflexivity|]. cbn [length seq combine for_list map].
    unfold idx at 1 3. rewrite nth_error_app2 by lia. rewrite Nat.sub_diag. cbn [nth_error bind]. rewrite (feqb_refl HF). cbn [assert bind].
    specialize (IH (pre ++ [f_of_Z v]) 0). rewrite app_length in IH. cbn [length] in IH. rewrite Nat.add_1_r in IH. rewrite <- !app_assoc in IH. right. destruct IH; assumption.
  Qed.
  Lemma kat_ok t perm l : perm (map (fun i => f_of_Z (Z.of_nat i)) (seq 0 t)) = Ok (map (f_of_Z (F := F)) l) -> kat t perm l = Ok 0.
  Proof. intros H. unfold kat. rewrite H. cbn [bind]. destruct (kat_loop l [] 0) as [E|E]; exact E. Qed.

  (** the matrices *)
  Lemma test_matmul_eq dbg (x : list F) m : length x <= length m -> test_matmul dbg x m = mat_vec_mul dbg m x.
  Proof.
    intros H. unfold test_matmul, mat_vec_mul. rewrite firstn_all2; [rewrite (f_of_Z_0 HP); reflexivity|]. rewrite combine_length, seq_length. lia.
  Qed.
  Lemma build_mi_ok (P : NeptuneParams F) : length (np_mu P) = np_t P ->
    exists mi, build_mi P = Ok mi /\ dims (np_t P) (np_t P) mi /\ mat_eq (np_t P) (entry mi) (np_int_matrix (fun i => fadd (nth i (np_mu P) f0) f1)).
  Proof.
    intros L. set (t := np_t P) in *. unfold build_mi. fold t.
    destruct (for_range_inv (fun k mi => dims t t mi /\ forall i j, i < t -> j < t -> entry mi i j = if (i =? j) && (i <? k) then fadd (nth i (np_mu P) f0) f1 else (f1 : F))
      0 t (fun i mi => mu <- idx (np_mu P) i ;; mi <- upd2 mi i i mu ;; v <- idx2 mi i i ;; upd2 mi i i (fadd v (f_of_Z 1))) (repeat (repeat (f_of_Z 1) t) t)) as [mi [E [D H]]].
    - lia.
    - split.
      + split; [apply repeat_length|]. intros i Hi. rewrite nth_indep with (d' := repeat (f_of_Z 1) t) by (rewrite repeat_length; exact Hi). rewrite nth_repeat. apply repeat_length.
      + intros i j Hi Hj. rewrite andb_false_r. unfold entry. rewrite nth_indep with (d' := repeat (f_of_Z 1) t) by (rewrite repeat_length; exact Hi). rewrite nth_repeat.
        rewrite nth_indep with (d' := f_of_Z 1) by (rewrite repeat_length; exact Hj). rewrite nth_repeat. apply (f_of_Z_1 HP).
    - intros i mi Hi [[D1 D2] H]. rewrite (idx_ok f0) by lia. cbn [bind]. unfold upd2, idx2.
      rewrite (idx_ok []) by lia. cbn [bind]. rewrite upd_ok by (rewrite D2; lia). cbn [bind]. rewrite upd_ok by lia. cbn [bind].
      rewrite (idx_ok []) by (rewrite set_nth_length; lia). cbn [bind]. rewrite set_nth_nth by lia. rewrite Nat.eqb_refl.
      rewrite (idx_ok f0) by (rewrite set_nth_length; rewrite ?D2; lia). cbn [bind]. rewrite set_nth_nth by (rewrite D2; lia). rewrite Nat.eqb_refl.
      rewrite upd_ok by (rewrite set_nth_length; rewrite D2; lia). cbn [bind]. rewrite upd_ok by (rewrite set_nth_length; lia). eexists. split; [reflexivity|]. split.
      + split; [rewrite !set_nth_length; rewrite ?set_nth_length; lia|]. intros k Hk. rewrite set_nth_nth by (rewrite set_nth_length; lia).
        destruct (Nat.eqb_spec k i) as [->|N]; [rewrite !set_nth_length; rewrite ?set_nth_length; rewrite ?D2; lia|]. rewrite set_nth_nth by lia.
        apply Nat.eqb_neq in N. rewrite N. apply D2. exact Hk.
      + intros a b Ha Hb. unfold entry. rewrite set_nth_nth by (rewrite set_nth_length; lia). destruct (Nat.eqb_spec a i) as [->|N].
        * rewrite set_nth_nth by (rewrite set_nth_length; rewrite D2; lia). destruct (Nat.eqb_spec b i) as [->|Nb].
          -- rewrite Nat.eqb_refl. replace (i <? S i) with true by (symmetry; apply Nat.ltb_lt; lia). cbn [andb]. rewrite (f_of_Z_1 HP). reflexivity.
          -- rewrite set_nth_nth by (rewrite D2; lia). pose proof Nb as Nb'. apply Nat.eqb_neq in Nb'. rewrite Nb'. change (nth b (nth i mi []) f0) with (entry mi i b). rewrite H by lia.
             replace (i =? b) with false by (symmetry; apply Nat.eqb_neq; congruence). reflexivity.
        * rewrite set_nth_nth by lia. pose proof N as N'. apply Nat.eqb_neq in N'. rewrite N'. change (nth b (nth a mi []) f0) with (entry mi a b). rewrite H by lia.
          destruct (Nat.eqb_spec a b); cbn [andb]; [|reflexivity]. destruct (Nat.ltb_spec a i); destruct (Nat.ltb_spec a (S i)); try lia; reflexivity.
    - exists mi. split; [exact E|]. split; [exact D|]. intros i j Hi Hj. rewrite H by assumption. unfold np_int_matrix. apply Nat.ltb_lt in Hi. rewrite Hi, andb_true_r.
      destruct (i =? j); reflexivity.
  Qed.

  Lemma for_list_unit {X} (l : list X) (f : X -> bool) : for_list l (fun x (_ : unit) => assert (f x)) tt = assert (forallb f l).
  Proof. induction l as [|x l IH]; cbn [for_list forallb]; [reflexivity|]. destruct (f x); cbn [assert bind andb]; [exact IH|reflexivity]. Qed.

  Definition pattern_b (m : list (list F)) (t : nat) : bool :=
    forallb (fun i => forallb (fun j => if (i + j) mod 2 =? 0 then negb (feqb (entry m i j) (f_of_Z 0)) else feqb (entry m i j) (f_of_Z 0)) (seq 0 t)) (seq 0 t).
  Lemma pattern_loop (m : list (list F)) t : dims t t m ->
    for_range 0 (Nat.min (length m) t) (fun row (_ : unit) =>
      matrow <- idx m row ;;
      for_range 0 (Nat.min (length matrow) t) (fun col (_ : unit) =>
        matrowcol <- idx matrow col ;;
        if (row + col) mod 2 =? 0 then assert (negb (feqb matrowcol (f_of_Z 0)))
        else assert (feqb matrowcol (f_of_Z 0))) tt) tt = assert (pattern_b m t).
  Proof.
    intros [D1 D2]. rewrite D1, Nat.min_id. unfold pattern_b. rewrite <- for_list_unit. unfold for_range at 1. rewrite Nat.sub_0_r.
    apply for_list_ext. intros i [] Hi. apply in_seq in Hi. rewrite (idx_ok []) by lia. cbn [bind]. rewrite D2 by lia. rewrite Nat.min_id.
    rewrite <- for_list_unit. unfold for_range. rewrite Nat.sub_0_r. apply for_list_ext. intros j [] Hj. apply in_seq in Hj.
    rewrite (idx_ok f0) by (rewrite D2; lia). cbn [bind]. unfold entry. destruct ((i + j) mod 2 =? 0); reflexivity.
  Qed.

  Lemma ext_odd t n (rng : nat -> F) i j : (i + j) mod 2 <> 0 -> np_ext_entry t n rng i j = f0.
  Proof.
    intros H. unfold np_ext_entry.
    pose proof (Nat.mod_upper_bound i 2 ltac:(lia)). pose proof (Nat.mod_upper_bound j 2 ltac:(lia)). pose proof (Nat.div_mod i 2 ltac:(lia)). pose proof (Nat.div_mod j 2 ltac:(lia)).
    destruct (Nat.eqb_spec (i mod 2) 1) as [A|A]; destruct (Nat.eqb_spec (j mod 2) 1) as [B|B]; destruct (Nat.eqb_spec (i mod 2) 0) as [C|C]; destruct (Nat.eqb_spec (j mod 2) 0) as [D|D]; cbn [andb]; try lia; try reflexivity; exfalso; apply H.
    all: first [replace (i + j) with ((i / 2 + j / 2 + 1) * 2) by lia; apply Nat.mod_mul; lia | replace (i + j) with ((i / 2 + j / 2) * 2) by lia; apply Nat.mod_mul; lia].
  Qed.

  Theorem matmul_outcome dbg fuel rng rnd t P : np_new dbg fuel rng t 3 2 1 = Ok P -> 1 <= t ->
    ((forall i j, i < t -> j < t -> (i + j) mod 2 = 0 -> np_ext_entry t 3 rng i j <> (f0 : F)) -> exists pos, matmul_equalities dbg fuel rng rnd t = Ok pos) /\
    ((exists i j, i < t /\ j < t /\ (i + j) mod 2 = 0 /\ np_ext_entry t 3 rng i j = (f0 : F)) -> matmul_equalities dbg fuel rng rnd t = Panic).
  Proof.
    intros HN Ht. assert (U : (N.of_nat 2 + N.of_nat 1 < usize_mod)%N) by (vm_compute; reflexivity).
    destruct (ProofNeptuneFin.np_new_contents HF dbg fuel rng t 3 2 1 P HN U) as [_ [ET [_ [_ [_ [_ [_ [_ [[DM HM] [[LM _] _]]]]]]]]]].
    cbn [Nat.add] in HM. unfold matmul_equalities. rewrite HN. cbn [bind]. rewrite ET. rewrite pattern_loop by exact DM. split.
    - intros HZ. replace (pattern_b (np_m_e P) t) with true; [cbn [assert bind]|].
      + destruct (build_mi_ok P) as [mi [-> [DI HI]]]; [congruence|]. rewrite ET in DI, HI. cbn [bind]. unfold for_range. apply for_list_all_ok. intros _ s _. rewrite draws.
        set (x := map rnd (seq s t)). assert (Lx : length x = t) by (unfold x; rewrite map_length, seq_length; reflexivity).
        rewrite (ProofNeptuneBij.np_external_matmul_ok HP dbg fuel rng t 3 2 1 P x HN U Lx). cbn [bind].
        rewrite test_matmul_eq by (rewrite (proj1 DM); lia). rewrite (ProofMatHelpers.mat_vec_mul_spec HF dbg t t) by auto. cbn [bind]. rewrite vec_eqb_refl. cbn [assert bind].
        destruct (ProofNeptuneBij.np_internal_matmul_ok HP dbg fuel rng t 3 2 1 P x HN U Lx Ht) as [mu [Hmu ->]]. cbn [bind].
        rewrite test_matmul_eq by (rewrite (proj1 DI); lia). rewrite (ProofMatHelpers.mat_vec_mul_spec HF dbg t t) by auto. cbn [bind].
        replace (mat_apply t t (entry mi) x) with (mat_apply t t (np_int_matrix mu) x); [rewrite vec_eqb_refl; cbn [assert bind]; eauto|].
        unfold mat_apply. apply map_ext_in. intros i Hi. apply in_seq in Hi. apply LinAlg.sumn_ext. intros j Hj. f_equal. rewrite HI by lia. unfold np_int_matrix.
        destruct (i =? j); [|reflexivity]. destruct (Hmu i ltac:(lia)) as [_ [_ ->]]. ring.
      + symmetry. unfold pattern_b. apply forallb_forall. intros i Hi. apply forallb_forall. intros j Hj. apply in_seq in Hi. apply in_seq in Hj. rewrite (f_of_Z_0 HP), HM by lia.
        destruct (Nat.eqb_spec ((i + j) mod 2) 0) as [E|E]; [rewrite (feqb_neq HF); [reflexivity|apply HZ; lia]|]. rewrite ext_odd by exact E. apply (feqb_refl HF).
    - intros [i [j [Hi [Hj [E Z]]]]]. replace (pattern_b (np_m_e P) t) with false; [reflexivity|]. symmetry. apply not_true_iff_false. intros C.
      unfold pattern_b in C. rewrite forallb_forall in C. specialize (C i ltac:(apply in_seq; lia)). rewrite forallb_forall in C. specialize (C j ltac:(apply in_seq; lia)).
      rewrite E, Nat.eqb_refl, (f_of_Z_0 HP), HM, Z, (feqb_refl HF) in C by assumption. discriminate.
  Qed.

  (** widths 4 and 8 have fixed matrices *)
  Lemma fixed_pattern t n (rng : nat -> F) : t = 4 \/ t = 8 -> (3 < p)%Z -> forall i j, i < t -> j < t -> (i + j) mod 2 = 0 -> np_ext_entry t n rng i j <> f0.
  Proof.
    intros Ht Hp.
    assert (N1 : f_of_Z 1 <> (f0 : F)) by (apply (f_of_Z_neq_0 HP); lia). assert (N2 : f_of_Z 2 <> (f0 : F)) by (apply (f_of_Z_neq_0 HP); lia).
    assert (N3 : f_of_Z 3 <> (f0 : F)) by (apply (f_of_Z_neq_0 HP); lia). assert (N0 : f1 <> (f0 : F)) by exact (ff_one_neq_zero _ HF).
    destruct Ht as [-> | ->]; intros i j Hi Hj; unfold np_ext_entry, np_even_block, np_odd_block, circ; cbn [Nat.eqb length].
    - do 4 (destruct i as [|i]; [do 4 (destruct j as [|j]; [cbn -[f_of_Z f0 f1]; intros; (assumption || discriminate)|]); lia|]). lia.
    - do 8 (destruct i as [|i]; [do 8 (destruct j as [|j]; [cbn -[f_of_Z f0 f1]; intros; (assumption || discriminate)|]); lia|]). lia.
  Qed.

  Lemma list_not_panic {A} (Ps : list A) (t : A -> nat) perm fuel rnd pos : (forall P, In P Ps -> bijective_on (t P) (perm P)) ->
    for_list Ps (fun P pos => consistent_perm fuel (t P) (perm P) rnd pos) pos <> Panic.
  Proof. intros H. apply for_list_not_panic. intros P s HP'. apply consistent_ok. apply H. exact HP'. Qed.
  Lemma list_ok {A} (Ps : list A) (t : A -> nat) perm fuel rnd pos : (forall P, In P Ps -> bijective_on (t P) (perm P) /\ 1 <= t P <= 24) -> lively fuel rnd ->
    exists pos', for_list Ps (fun P pos => consistent_perm fuel (t P) (perm P) rnd pos) pos = Ok pos'.
  Proof. intros H HL. apply for_list_all_ok. intros P s HP'. destruct (H P HP') as [B T]. apply (consistent_ok fuel _ _ rnd s B); assumption. Qed.

  Lemma p2_all dbg l : Forall (fun J => In J p2_instances /\ qi_p J = p) l -> exists Ps, mapM (p2_instance_params (F := F) dbg) l = Ok Ps /\
    forall P, In P Ps -> bijective_on (p2_get_t P) (p2_permutation dbg P) /\ 1 <= p2_get_t P <= 24.
  Proof.
    intros H. rewrite Forall_forall in H.
    destruct (mapM_all (p2_instance_params dbg) (fun _ P => bijective_on (p2_get_t P) (p2_permutation dbg P) /\ 1 <= p2_get_t P <= 24) l) as [Ps [E HQ]].
    - intros J HJ. destruct (H J HJ) as [HI HM]. destruct (ProofKats.p2_shipped_permutation J HI F Fo (eq_rect_r (fun q => is_prime_field Fo q) HP HM) dbg) as [P [EP [HB _]]].
      exists P. split; [exact EP|]. unfold p2_get_t. rewrite (ProofBenches.p2_params_t dbg J P EP). split; [exact HB|]. apply small_ok. exact (proj1 (forallb_forall _ _) p2_small J HI).
    - exists Ps. split; [exact E|]. intros P HPs. destruct (Forall2_in_r _ _ _ _ HQ HPs) as [_ [_ A]]. exact A.
  Qed.
  Lemma ps_all dbg l : Forall (fun J => In J ps_instances /\ si_p J = p) l -> exists Ps, mapM (ps_instance_params (F := F) dbg) l = Ok Ps /\
    forall P, In P Ps -> (bijective_on (ps_get_t P) (ps_permutation dbg P) /\ 1 <= ps_get_t P <= 24) /\
      forall x, length x = ps_get_t P -> exists y, ps_permutation dbg P x = Ok y /\ ps_permutation_not_opt dbg P x = Ok y.
  Proof.
    intros H. rewrite Forall_forall in H.
    destruct (mapM_all (ps_instance_params dbg) (fun _ P => (bijective_on (ps_get_t P) (ps_permutation dbg P) /\ 1 <= ps_get_t P <= 24) /\
      forall x, length x = ps_get_t P -> exists y, ps_permutation dbg P x = Ok y /\ ps_permutation_not_opt dbg P x = Ok y) l) as [Ps [E HQ]].
    - intros J HJ. destruct (H J HJ) as [HI HM]. destruct (proj2 (ProofKats.ps_shipped_permutation J HI) F Fo (eq_rect_r (fun q => is_prime_field Fo q) HP HM) dbg) as [P [EP [HO [HB _]]]].
      exists P. split; [exact EP|]. unfold ps_get_t. rewrite (ProofBenches.ps_params_t dbg J P EP). split; [split; [exact HB|]|].
      + apply small_ok. exact (proj1 (forallb_forall _ _) ps_small J HI).
      + intros x Lx. destruct (HO x Lx) as [A B]. rewrite <- A, B. eauto.
    - exists Ps. split; [exact E|]. intros P HPs. destruct (Forall2_in_r _ _ _ _ HQ HPs) as [_ [_ A]]. exact A.
  Qed.
  Lemma gm_all dbg rng l : Forall (fun J => In J gm_instances) l -> exists Ps, mapM (gm_build rng) (combine (seq 0 (length l)) l) = Ok Ps /\
    forall P : GmimcParams F, In P Ps -> (bijective_on (gm_get_t P) (gm_permutation dbg P) /\ 1 <= gm_get_t P <= 24) /\
      forall x, length x = gm_get_t P -> exists y, gm_permutation dbg P x = Ok y /\ gm_permutation_not_opt dbg P x = Ok y.
  Proof.
    intros H. rewrite Forall_forall in H.
    destruct (mapM_all (gm_build rng) (fun _ P => (bijective_on (gm_get_t P) (gm_permutation dbg P) /\ 1 <= gm_get_t P <= 24) /\
      forall x, length x = gm_get_t P -> exists y, gm_permutation dbg P x = Ok y /\ gm_permutation_not_opt dbg P x = Ok y) (combine (seq 0 (length l)) l)) as [Ps [E HQ]].
    - intros [i J] HJ. apply in_combine_r in HJ. specialize (H J HJ). destruct (ProofBenches.gm_runs HP dbg (rng i) J H) as [P [EP [ET HR]]].
      exists P. split; [exact EP|]. unfold gm_get_t. rewrite ET. split; [split|].
      + apply (ProofGmimc.gm_bijective HF dbg (rng i) (gi_t J) (gi_d J) (gi_rounds J) P EP);
        pose proof (proj1 (forallb_forall _ _) ProofBenches.gm_shapes J H) as S; unfold ProofBenches.gm_shape in S; rewrite !andb_true_iff, !Nat.leb_le in S; lia.
      + apply small_ok. exact (proj1 (forallb_forall _ _) gm_small J H).
      + intros x Lx. destruct (HR x Lx) as [-> ->]. eauto.
    - exists Ps. split; [exact E|]. intros P HPs. destruct (Forall2_in_r _ _ _ _ HQ HPs) as [_ [_ A]]. exact A.
  Qed.

  Theorem independent_pass dbg fuel rng rnd tst : test_shipped p tst -> independent tst = true -> (3 < p)%Z ->
    run_test dbg fuel rng rnd tst <> Panic /\ (lively fuel rnd -> nonzero_draws fuel rng -> exists n, run_test dbg fuel rng rnd tst = Ok n).
  Proof.
    intros HS HI H3. destruct tst as [l|l|l|l|l|l|J out|J out|t|? ? ? ?]; cbn [test_shipped independent run_test] in *; try discriminate HI.
    - destruct (p2_all dbg l HS) as [Ps [-> HA]]. cbn [bind]. split; [apply list_not_panic; intros P HPs; apply HA, HPs|intros HL _; apply list_ok; assumption].
    - destruct (ps_all dbg l HS) as [Ps [-> HA]]. cbn [bind]. split; [apply list_not_panic; intros P HPs; apply HA, HPs|intros HL _; apply list_ok; [intros P HPs; apply HA, HPs|exact HL]].
    - destruct (gm_all dbg rng l HS) as [Ps [-> HA]]. cbn [bind]. split; [apply list_not_panic; intros P HPs; apply HA, HPs|intros HL _; apply list_ok; [intros P HPs; apply HA, HPs|exact HL]].
    - destruct (ps_all dbg l HS) as [Ps [-> HA]]. cbn [bind].
      assert (E : exists n, for_list Ps (fun P pos => opt_equals_not_opt (ps_get_t P) (ps_permutation dbg P) (ps_permutation_not_opt dbg P) rnd pos) 0 = Ok n)
        by (apply for_list_all_ok; intros P s HPs; apply opt_ok; apply HA, HPs).
      split; [destruct E as [n ->]; discriminate|intros _ _; exact E].
    - destruct (gm_all dbg rng l HS) as [Ps [-> HA]]. cbn [bind].
      assert (E : exists n, for_list Ps (fun P pos => opt_equals_not_opt (gm_get_t P) (gm_permutation dbg P) (gm_permutation_not_opt dbg P) rnd pos) 0 = Ok n)
        by (apply for_list_all_ok; intros P s HPs; apply opt_ok; apply HA, HPs).
      split; [destruct E as [n ->]; discriminate|intros _ _; exact E].
    - destruct HS as [HK HM]. destruct (ProofKnown.p2_known_answers J out HK F Fo (eq_rect_r (fun q => is_prime_field Fo q) HP HM) dbg) as [P [EP HR]]. rewrite EP. cbn [bind].
      unfold p2_get_t. rewrite (ProofBenches.p2_params_t dbg J P EP). rewrite kat_ok; [split; [discriminate|eauto]|]. rewrite <- HR. unfold SpecFields.iota. rewrite map_map. reflexivity.
    - destruct HS as [HK HM]. destruct (ProofKnown.ps_known_answers J out HK F Fo (eq_rect_r (fun q => is_prime_field Fo q) HP HM) dbg) as [P [EP [HR _]]]. rewrite EP. cbn [bind].
      unfold ps_get_t. rewrite (ProofBenches.ps_params_t dbg J P EP). rewrite kat_ok; [split; [discriminate|eauto]|]. rewrite <- HR. unfold SpecFields.iota. rewrite map_map. reflexivity.
    - assert (Ht : t = 4 \/ t = 8) by (apply orb_true_iff in HI; destruct HI as [HI|HI]; apply Nat.eqb_eq in HI; auto).
      assert (U : (N.of_nat 2 + N.of_nat 1 < usize_mod)%N) by (vm_compute; reflexivity).
      assert (A : In 3 [3; 5; 7] /\ 2 mod 2 = 0 /\ t mod 2 = 0) by (split; [left; reflexivity|split; [reflexivity|destruct Ht as [-> | ->]; reflexivity]]).
      destruct (ProofNeptuneFin.np_new_outcome HF dbg fuel (rng 0) t 3 2 1 U) as [NP NO]. split.
      + destruct (np_new dbg fuel (rng 0) t 3 2 1) as [P| |] eqn:EP.
        * destruct (proj1 (matmul_outcome dbg fuel (rng 0) rnd t P EP HS) (fixed_pattern t 3 (rng 0) Ht H3)) as [n ->]. discriminate.
        * exfalso. apply (proj2 NP eq_refl). exact A.
        * unfold matmul_equalities. rewrite EP. discriminate.
      + intros _ HN. destruct (NO (HN 0) A) as [P EP]. exact (proj1 (matmul_outcome dbg fuel (rng 0) rnd t P EP HS) (fixed_pattern t 3 (rng 0) Ht H3)).
  Qed.

  (** *** Neptune *)
  Lemma run_once fuel t (rnd : nat -> F) pos : 1 <= fuel -> map rnd (seq pos t) <> map rnd (seq (pos + t) t) ->
    draw_other fuel t (map rnd (seq pos t)) rnd (pos + t) = Ok (map rnd (seq (pos + t) t), pos + t + t).
  Proof. intros Hf N. destruct fuel as [|fuel]; [lia|]. cbn [draw_other]. rewrite draws, vec_eqb_neq by exact N. reflexivity. Qed.

  Lemma consistent_count fuel t perm (rnd : nat -> F) pos : bijective_on t perm -> 1 <= fuel -> 1 <= t -> (Z.of_nat t < p)%Z ->
    (forall n, pos <= n < pos + 10 * t -> rnd n = f_of_Z (Z.of_nat n)) -> consistent_perm fuel t perm rnd pos = Ok (pos + 10 * t).
  Proof.
    intros [HT [HI _]] Hf Ht Hp HR. unfold consistent_perm.
    destruct (for_range_inv (fun k q => q = pos + k * (2 * t)) 0 TESTRUNS (fun _ pos =>
      let '(input1, pos) := random_vec t rnd pos in
      '(input2, pos) <- draw_other fuel t input1 rnd pos ;;
      perm1 <- perm input1 ;; perm2 <- perm input1 ;; perm3 <- perm input2 ;;
      assert (vec_eqb perm1 perm2) ;; assert (negb (vec_eqb perm1 perm3)) ;; Ok pos) pos) as [q [E ->]].
    - lia.
    - lia.
    - intros k q Hk ->. set (q := pos + k * (2 * t)). rewrite draws. unfold TESTRUNS in Hk.
      assert (N : map rnd (seq q t) <> map rnd (seq (q + t) t)).
      { intros C. apply (f_equal (fun l => nth 0 l f0)) in C. destruct t as [|t']; [lia|]. cbn [seq map nth] in C. rewrite !HR in C by (unfold q; nia). apply (f_of_Z_eq_iff HP) in C.
        rewrite Nat2Z.inj_add in C. rewrite <- (Z.add_0_r (Z.of_nat q)) in C at 1.
        assert (D : (Z.of_nat (S t') mod p = 0)%Z).
        { replace (Z.of_nat (S t')) with ((Z.of_nat q + Z.of_nat (S t')) - (Z.of_nat q + 0))%Z by lia. rewrite Zminus_mod, <- C, Z.sub_diag. apply Z.mod_0_l. lia. }
        rewrite Z.mod_small in D by lia. lia. }
      rewrite run_once by assumption. cbn [bind].
      assert (L1 : length (map rnd (seq q t)) = t) by (rewrite map_length, seq_length; reflexivity).
      assert (L2 : length (map rnd (seq (q + t) t)) = t) by (rewrite map_length, seq_length; reflexivity).
      destruct (HT _ L1) as [y1 [E1 _]]. destruct (HT _ L2) as [y2 [E2 _]]. rewrite E1, E2. cbn [bind]. rewrite vec_eqb_refl. cbn [assert bind].
      rewrite vec_eqb_neq; [cbn [assert negb bind]|]; [|intros C; subst y2; apply N; exact (HI _ _ _ L1 L2 E1 E2)].
      eexists. split; [reflexivity|]. unfold q. lia.
    - rewrite E. f_equal. unfold TESTRUNS. lia.
  Qed.

  Lemma consistent_collision fuel t perm (rnd : nat -> F) pos x y z : length x = t -> length y = t -> x <> y -> perm x = Ok z -> perm y = Ok z -> 1 <= fuel ->
    map rnd (seq pos t) = x -> map rnd (seq (pos + t) t) = y -> consistent_perm fuel t perm rnd pos = Panic.
  Proof.
    intros Lx Ly N Ex Ey Hf Rx Ry. unfold consistent_perm. rewrite for_range_step by (unfold TESTRUNS; lia). rewrite draws, run_once by (assumption || congruence).
    rewrite Rx, Ry. cbn [bind]. rewrite Ex, Ey. cbn [bind]. rewrite !vec_eqb_refl. reflexivity.
  Qed.

  Lemma map_seq_nth (l : list F) n : map (fun i => nth (i - n) l f0) (seq n (length l)) = l.
  Proof.
    revert n. induction l as [|a l IH]; intros n; [reflexivity|]. cbn [length seq map]. rewrite Nat.sub_diag. cbn [nth]. f_equal.
    rewrite <- (IH (S n)) at 2. apply map_ext_in. intros i Hi. apply in_seq in Hi. replace (i - n) with (S (i - S n)) by lia. reflexivity.
  Qed.

  (** if no draws make the test panic, every permutation of the list is injective *)
  Lemma never_panics_injective {A} (t : A -> nat) (perm : A -> list F -> res (list F)) fuel (Q : A -> Prop) Ps : 1 <= fuel ->
    (forall P, In P Ps -> 1 <= t P /\ (Z.of_nat (t P) < p)%Z) ->
    (forall P, In P Ps -> (forall x y z, length x = t P -> length y = t P -> perm P x = Ok z -> perm P y = Ok z -> x = y) -> bijective_on (t P) (perm P) /\ Q P) ->
    forall pos, (forall rnd, (forall n, n < pos -> rnd n = f_of_Z (Z.of_nat n)) -> for_list Ps (fun P pos => consistent_perm fuel (t P) (perm P) rnd pos) pos <> Panic) -> Forall Q Ps.
  Proof.
    intros Hf. induction Ps as [|P Ps IH]; intros HT HB pos H; [constructor|].
    destruct (HB P (or_introl eq_refl)) as [B HQ].
    - intros x y z Lx Ly Ex Ey. destruct (vec_eqb x y) eqn:E; [apply vec_eqb_eq; exact E|exfalso].
      assert (N : x <> y) by (intros ->; rewrite vec_eqb_refl in E; discriminate).
      set (rnd := fun n => if n <? pos then f_of_Z (Z.of_nat n) else if n <? pos + t P then nth (n - pos) x f0 else nth (n - (pos + t P)) y f0).
      apply (H rnd); [intros n Hn; unfold rnd; apply Nat.ltb_lt in Hn; rewrite Hn; reflexivity|]. cbn [for_list].
      rewrite (consistent_collision fuel (t P) (perm P) rnd pos x y z); try assumption; [reflexivity| |].
      + rewrite <- (map_seq_nth x pos), Lx. apply map_ext_in. intros i Hi. apply in_seq in Hi. unfold rnd.
        destruct (Nat.ltb_spec i pos); [lia|]. destruct (Nat.ltb_spec i (pos + t P)); [|lia]. reflexivity.
      + rewrite <- (map_seq_nth y (pos + t P)), Ly. apply map_ext_in. intros i Hi. apply in_seq in Hi. unfold rnd.
        destruct (Nat.ltb_spec i pos); [lia|]. destruct (Nat.ltb_spec i (pos + t P)); [lia|]. reflexivity.
    - constructor; [exact HQ|]. apply (IH ltac:(intros; apply HT; right; assumption) ltac:(intros; apply HB; [right|]; assumption) (pos + 10 * t P)).
      intros rnd HR. specialize (H rnd ltac:(intros; apply HR; lia)). cbn [for_list] in H. destruct (HT P (or_introl eq_refl)) as [T1 T2].
      rewrite consistent_count in H by (assumption || (intros; apply HR; lia)). exact H.
  Qed.

  Lemma np_good_facts dbg fuel rng J P : In J np_instances -> ni_p J = p -> np_new dbg fuel rng (ni_t J) (ni_d J) (ni_rf J) (ni_rp J) = Ok P ->
    np_t P = ni_t J /\ 1 <= np_t P <= 24 /\
    ((forall x y z, length x = np_t P -> length y = np_t P -> np_permutation dbg P x = Ok z -> np_permutation dbg P y = Ok z -> x = y) -> np_good P) /\
    (np_good P -> bijective_on (np_t P) (np_permutation dbg P)).
  Proof.
    intros HJ HM EP. pose proof (proj1 (forallb_forall _ _) ProofBenches.np_shapes J HJ) as S. unfold ProofBenches.np_shape in S. rewrite !andb_true_iff in S. destruct S as [[[[S1 S2] S3] S4] S5].
    pose proof (proj1 (forallb_forall _ _) np_conds J HJ) as C. unfold np_cond in C. rewrite !andb_true_iff in C. destruct C as [[[[C1 C2] C3] C4] C5].
    apply small_ok in C1. apply Nat.leb_le in C2. apply Nat.leb_le in C3. apply Z.eqb_eq in C4. apply negb_true_iff in C5. apply Z.eqb_neq in C5. apply N.ltb_lt in S5. rewrite HM in C4, C5.
    destruct (ProofNeptuneFin.np_new_contents HF dbg fuel rng _ _ _ _ P EP S5) as [[Hd [_ Hev]] [ET [_ [_ [_ [_ [_ [_ [_ [_ [[ga Ega] _]]]]]]]]]]].
    split; [exact ET|]. split; [lia|]. unfold np_good. rewrite ET. split.
    - intros Hi. assert (Hd0 : ni_d J <> 0) by (intros Z; rewrite Z in Hd; cbn in Hd; intuition discriminate).
      destruct (ProofNeptuneBij.np_ref_inj HP (ni_t J) (ni_d J) (ni_rf J) (ni_rp J) ga (entry (np_m_e P)) (np_int_matrix (fun i => fadd (nth i (np_mu P) f0) f1)) (np_rc P)) as [A [_ B]]; try assumption.
      + intros x y Lx Ly E. apply (Hi x y (np_ref (ni_t J) (ni_d J) (ni_rf J) (ni_rp J) (f1, f1, ga) (entry (np_m_e P)) (np_int_matrix (fun i => fadd (nth i (np_mu P) f0) f1)) (np_rc P) x)); try assumption.
        * rewrite <- Ega. apply (ProofNeptuneBij.np_permutation_reference HP dbg fuel rng _ _ _ _ P x EP S5); [exact Lx|left; lia].
        * rewrite E, <- Ega. apply (ProofNeptuneBij.np_permutation_reference HP dbg fuel rng _ _ _ _ P y EP S5); [exact Ly|left; lia].
      + split; [apply (LinAlg.nonsingular_invertible HF); exact A|]. destruct B as [B|[B _]]; [lia|apply (LinAlg.nonsingular_invertible HF); exact B].
    - intros [A B]. apply (ProofNeptuneBij.np_bijective_iff HP dbg fuel rng (ni_t J) (ni_d J) (ni_rf J) (ni_rp J) P EP S5 C2). split; [exact A|]. split; [right; exact C5|right; split; [exact B|exact C4]].
  Qed.

  Theorem np_consistent_iff dbg fuel rng l Ps : test_shipped p (ConsistentNp l) -> (24 < p)%Z -> 1 <= fuel ->
    mapM (np_build dbg fuel rng) (combine (seq 0 (length l)) l) = Ok Ps ->
    ((forall rnd, run_test dbg fuel rng rnd (ConsistentNp l) <> Panic) <-> Forall np_good Ps) /\
    (Forall np_good Ps -> forall rnd, lively fuel rnd -> exists n, run_test dbg fuel rng rnd (ConsistentNp l) = Ok n).
  Proof.
    intros [HS _] Hp Hf EPs. cbn [run_test]. rewrite EPs. cbn [bind]. rewrite Forall_forall in HS.
    assert (HA : forall P, In P Ps -> 1 <= np_get_t P <= 24 /\
      ((forall x y z, length x = np_get_t P -> length y = np_get_t P -> np_permutation dbg P x = Ok z -> np_permutation dbg P y = Ok z -> x = y) -> np_good P) /\
      (np_good P -> bijective_on (np_get_t P) (np_permutation dbg P))).
    { intros P HPs. destruct (Forall2_in_r _ _ _ _ (mapM_Forall2 _ _ _ EPs) HPs) as [[i J] [HJ EP]]. apply in_combine_r in HJ. destruct (HS J HJ) as [H1 H2].
      destruct (np_good_facts dbg fuel (rng i) J P H1 H2 EP) as [_ H]. exact H. }
    split; [split|].
    - intros H. apply (never_panics_injective np_get_t (np_permutation dbg) fuel np_good Ps Hf) with (pos := 0).
      + intros P HPs. destruct (HA P HPs) as [T _]. lia.
      + intros P HPs Hi. destruct (HA P HPs) as [_ [A B]]. split; [apply B|]; apply A; exact Hi.
      + intros rnd _. apply H.
    - intros HG rnd. rewrite Forall_forall in HG. apply list_not_panic. intros P HPs. apply (HA P HPs). apply HG, HPs.
    - intros HG rnd HL. rewrite Forall_forall in HG. apply list_ok; [|exact HL]. intros P HPs. split; [apply (HA P HPs); apply HG, HPs|apply (HA P HPs)].
  Qed.

  (** input_24_elements *)
  Lemma p2_literals dbg J (P : Poseidon2Params F) : p2_instance_params dbg J = Ok P ->
    exists di ma, vec_literal (F := F) (qi_bytes J) (qi_diag J) = Ok di /\ mat_literal (F := F) (qi_bytes J) (qi_mat J) = Ok ma.
  Proof. unfold p2_instance_params. intros EP. apply bind_ok in EP. destruct EP as [di [Ed EP]]. apply bind_ok in EP. destruct EP as [ma [Em _]]. eauto. Qed.
  Lemma ps_literals dbg J (P : PoseidonParams F) : ps_instance_params dbg J = Ok P -> exists co, mat_literal (F := F) (si_bytes J) (si_rc J) = Ok co.
  Proof. unfold ps_instance_params. intros EQ. apply bind_ok in EQ. destruct EQ as [ms [_ EQ]]. apply bind_ok in EQ. destruct EQ as [co [Ec _]]. eauto. Qed.
  Lemma short_diag_panics dbg (di : list F) ma co : length di < 24 -> input_24_elements dbg di ma co = Panic.
  Proof.
    intros L. unfold input_24_elements. assert (U : (N.of_nat 8 + N.of_nat 56 < usize_mod)%N) by (vm_compute; reflexivity).
    destruct (p2_new dbg 24 5 8 56 di ma co) as [R| |] eqn:ER; cbn [bind]; [|reflexivity|].
    - set (x := map (fun i => f_of_Z (Z.of_nat i)) (seq 0 (p2_get_t R))).
      destruct (ProofPoseidon2Extra.p2_permutation_returns_iff HF dbg 24 5 8 56 di ma co R x ER U) as [A [B _]]. destruct B as [B| ->]; [|reflexivity]. exfalso.
      apply A in B. destruct B as [_ [_ [_ [_ [_ D]]]]]. specialize (D ltac:(lia) ltac:(lia)). lia.
    - exfalso. revert ER. unfold p2_new. unfold uadd. rewrite (proj2 (N.ltb_lt _ _) U). cbn. discriminate.
  Qed.
  Lemma mixed_panics dbg fuel rng rnd J J' : In J p2_instances -> In J' ps_instances -> qi_p J = p -> si_p J' = p -> si_bytes J' = qi_bytes J -> length (qi_diag J) < 24 ->
    run_test dbg fuel rng rnd (Input24 (qi_diag J) (qi_mat J) (si_rc J') (qi_bytes J)) = Panic.
  Proof.
    intros H1 H2 H3 H4 HB HL. destruct (ProofBenches.p2_runs HP dbg J H1 H3) as [P [EP _]]. destruct (ProofBenches.ps_runs HP dbg J' H2 H4) as [Q [EQ _]].
    destruct (p2_literals dbg J P EP) as [di [ma [Ed Em]]]. destruct (ps_literals dbg J' Q EQ) as [co Ec]. rewrite HB in Ec. cbn [run_test]. rewrite Ed, Em, Ec. cbn [bind].
    apply short_diag_panics. rewrite (mapM_len _ _ _ Ed). exact HL.
  Qed.
  Lemma bn_in : In POSEIDON2_BN256_PARAMS p2_instances /\ In POSEIDON_BN_PARAMS ps_instances.
  Proof. split; ProofBenches.in_at. Qed.
  Lemma bn_bytes : si_bytes POSEIDON_BN_PARAMS = qi_bytes POSEIDON2_BN256_PARAMS. Proof. reflexivity. Qed.
  Lemma bn_diag : length (qi_diag POSEIDON2_BN256_PARAMS) = 3. Proof. reflexivity. Qed.
  Lemma bn_p : qi_p POSEIDON2_BN256_PARAMS = p_bn256 /\ si_p POSEIDON_BN_PARAMS = p_bn256. Proof. split; reflexivity. Qed.
  Theorem input_24_panics dbg fuel rng rnd diag mat rc bytes : test_shipped p (Input24 diag mat rc bytes) -> run_test dbg fuel rng rnd (Input24 diag mat rc bytes) = Panic.
  Proof.
    intros (-> & -> & -> & -> & E). apply mixed_panics; [apply bn_in|apply bn_in|rewrite E; apply bn_p|rewrite E; apply bn_p|exact bn_bytes|rewrite bn_diag; lia].
  Qed.
End T.

Lemma tests_shipped : Forall (fun f => Forall (test_shipped (fst f)) (snd f)) test_files.
Proof.
  unfold test_files. apply Forall_app. split; [|apply Forall_app; split].
  - unfold matmul_tests. cbn [map]. repeat (apply Forall_cons; [cbn [fst snd]; repeat (apply Forall_cons; [cbn [test_shipped]|]); try apply Forall_nil|]); [..|apply Forall_nil];
    lazymatch goal with
    | |- 1 <= _ => lia
    | |- _ = _ /\ _ => repeat split; reflexivity
    | |- Forall _ _ /\ _ => split; [repeat (apply Forall_cons; [split; [ProofBenches.in_at|reflexivity]|]); apply Forall_nil|discriminate]
    | |- In _ _ /\ _ => split; [ProofBenches.in_at|reflexivity]
    | |- In _ _ => ProofBenches.in_at
    | |- Forall _ _ => repeat (apply Forall_cons; [first [split; [ProofBenches.in_at|reflexivity]|ProofBenches.in_at]|]); apply Forall_nil
    end.
  - apply Forall_forall. intros f Hf. apply in_map_iff in Hf. destruct Hf as [[J out] [<- Hk]]. apply Forall_cons; [|apply Forall_nil]. split; [exact Hk|reflexivity].
  - apply Forall_forall. intros f Hf. apply in_map_iff in Hf. destruct Hf as [[J out] [<- Hk]]. apply Forall_cons; [|apply Forall_nil]. split; [exact Hk|reflexivity].
Qed.

Lemma moduli_large : forallb (fun f => 24 <? fst f)%Z test_files = true. Proof. reflexivity. Qed.
Lemma test_facts f tst : In f test_files -> In tst (snd f) -> test_shipped (fst f) tst /\ (24 < fst f)%Z.
Proof.
  intros Hf Ht. split; [exact (proj1 (Forall_forall _ _) (proj1 (Forall_forall _ _) tests_shipped f Hf) tst Ht)|].
  apply Z.ltb_lt. exact (proj1 (forallb_forall _ _) moduli_large f Hf).
Qed.

Theorem all_independent f tst : In f test_files -> In tst (snd f) -> independent tst = true ->
  forall F (Fo : FOps F), is_prime_field Fo (fst f) -> forall dbg fuel rng rnd,
  run_test dbg fuel rng rnd tst <> Panic /\ (lively fuel rnd -> nonzero_draws fuel rng -> exists n, run_test dbg fuel rng rnd tst = Ok n).
Proof. intros Hf Ht HI F Fo HP dbg fuel rng rnd. destruct (test_facts f tst Hf Ht) as [HS HL]. apply (independent_pass HP); [exact HS|exact HI|lia]. Qed.

Theorem all_np_consistent f l : In f test_files -> In (ConsistentNp l) (snd f) ->
  forall F (Fo : FOps F), is_prime_field Fo (fst f) -> forall dbg fuel rng Ps, 1 <= fuel ->
  mapM (np_build dbg fuel rng) (combine (seq 0 (length l)) l) = Ok Ps ->
  ((forall rnd, run_test dbg fuel rng rnd (ConsistentNp l) <> Panic) <-> Forall np_good Ps) /\
  (Forall np_good Ps -> forall rnd, lively fuel rnd -> exists n, run_test dbg fuel rng rnd (ConsistentNp l) = Ok n).
Proof. intros Hf Ht F Fo HP dbg fuel rng Ps H1 EP. destruct (test_facts f _ Hf Ht) as [HS HL]. apply (np_consistent_iff HP); assumption. Qed.

(** with all draws equal to one the internal matrix is singular *)
Theorem np_consistent_refuted f l : In f test_files -> In (ConsistentNp l) (snd f) ->
  forall F (Fo : FOps F), is_prime_field Fo (fst f) -> forall dbg fuel, 1 <= fuel -> ~ forall rnd, run_test dbg fuel (fun _ _ => f1) rnd (ConsistentNp l) <> Panic.
Proof.
  intros Hf Ht F Fo HP dbg fuel H1 C. destruct (test_facts f _ Hf Ht) as [HS HL]. pose proof HS as [HA HN]. rewrite Forall_forall in HA.
  assert (HB : forall J, In J l -> exists P : NeptuneParams F, np_new dbg fuel (fun _ => f1) (ni_t J) (ni_d J) (ni_rf J) (ni_rp J) = Ok P /\ ~ bijective_on (ni_t J) (np_permutation dbg P)).
  { intros J HJ. destruct (HA J HJ) as [HI _]. pose proof (proj1 (forallb_forall _ _) ProofBenches.np_shapes J HI) as S. unfold ProofBenches.np_shape in S. rewrite !andb_true_iff in S.
    destruct S as [[[[S1 S2] S3] S4] S5]. pose proof (proj1 (forallb_forall _ _) np_conds J HI) as D. unfold np_cond in D. rewrite !andb_true_iff in D. destruct D as [[[[C1 C2] C3] C4] C5].
    apply (ProofNeptuneBij.np_singular_mu HP).
    - split; [apply ProofPoseidon2.degree_bool; exact S1|]. split; apply Nat.eqb_eq; assumption.
    - apply Nat.leb_le. exact C2.
    - apply Nat.leb_le. exact C3.
    - apply N.ltb_lt. exact S5.
    - exact H1. }
  destruct (mapM_all (np_build dbg fuel (fun _ _ => f1)) (fun (iJ : nat * np_instance) (P : NeptuneParams F) => In (snd iJ) l /\ np_new dbg fuel (fun _ => f1) (ni_t (snd iJ)) (ni_d (snd iJ)) (ni_rf (snd iJ)) (ni_rp (snd iJ)) = Ok P /\
    ~ bijective_on (ni_t (snd iJ)) (np_permutation dbg P)) (combine (seq 0 (length l)) l)) as [Ps [EP HQ]].
  { intros [i J] HJ. apply in_combine_r in HJ. destruct (HB J HJ) as [P [E N]]. exists P. split; [exact E|]. split; [exact HJ|]. split; [exact E|exact N]. }
  pose proof (proj1 (proj1 (np_consistent_iff HP dbg fuel _ l Ps HS HL H1 EP)) C) as HG.
  destruct l as [|J l]; [apply HN; reflexivity|]. cbn [length seq combine] in HQ. inversion HQ as [|x P xs ys [HJ [EJ NB]] _]; subst.
  apply NB. inversion HG as [|P' l' G _]; subst. cbn [snd] in *. destruct (HA J (or_introl eq_refl)) as [HI HM].
  destruct (np_good_facts HP dbg fuel (fun _ => f1) J P HI HM EJ) as [ET [_ [_ B]]]. rewrite <- ET. apply B, G.
Qed.

Theorem matmul_refuted F (Fo : FOps F) p : is_prime_field Fo p -> forall t, t mod 2 = 0 -> t <> 0 -> t <> 4 -> t <> 8 ->
  exists rng : nat -> nat -> F, nonzero_draws 2 rng /\ forall dbg fuel rnd, 2 <= fuel -> run_test dbg fuel rng rnd (MatmulEqualities t) = Panic.
Proof.
  intros HP t He H0 H4 H8. pose proof (prime_field_is_field HP) as HF. exists (fun _ n => if n =? 3 * t then f0 else f1).
  assert (HN : forall fuel, 2 <= fuel -> nonzero_draws fuel (fun _ n : nat => if n =? 3 * t then (f0 : F) else f1)).
  { intros fuel Hfu i q. destruct (Nat.eqb_spec q (3 * t)) as [E|E].
    - exists 1. split; [lia|]. destruct (Nat.eqb_spec (q + 1) (3 * t)); [lia|]. exact (ff_one_neq_zero _ HF).
    - exists 0. split; [lia|]. rewrite Nat.add_0_r. apply Nat.eqb_neq in E. rewrite E. exact (ff_one_neq_zero _ HF). }
  split; [apply HN; lia|]. intros dbg fuel rnd Hfu. cbn [run_test].
  assert (U : (N.of_nat 2 + N.of_nat 1 < usize_mod)%N) by (vm_compute; reflexivity).
  destruct (ProofNeptuneFin.np_new_outcome HF dbg fuel (fun n => if n =? 3 * t then f0 else f1) t 3 2 1 U) as [_ NO].
  destruct (NO (HN fuel Hfu 0)) as [P EP]; [split; [left; reflexivity|split; [reflexivity|exact He]]|].
  apply (matmul_outcome HP dbg fuel _ rnd t P EP); [lia|]. exists 0, 0. repeat split; try lia.
  unfold np_ext_entry, np_even_block. cbn [Nat.modulo Nat.divmod fst snd Nat.sub Nat.eqb andb Nat.div]. apply Nat.eqb_neq in H4. apply Nat.eqb_neq in H8. rewrite H4, H8. cbn [Nat.mul].
  rewrite !Nat.add_0_r. change (t + (t + t)) with (t + (t + t)). replace (t + (t + t)) with (3 * t) by lia. rewrite Nat.eqb_refl. reflexivity.
Qed.

(** if no draw is zero every listed matmul_equalities passes *)
Lemma matmul_widths_even : forallb (fun f => forallb (fun tst => match tst with MatmulEqualities t => t mod 2 =? 0 | _ => true end) (snd f)) test_files = true.
Proof. reflexivity. Qed.
Theorem all_matmul f t : In f test_files -> In (MatmulEqualities t) (snd f) ->
  forall F (Fo : FOps F), is_prime_field Fo (fst f) -> forall dbg fuel rng rnd, 1 <= fuel -> (forall i q, rng i q <> (f0 : F)) ->
  exists n, run_test dbg fuel rng rnd (MatmulEqualities t) = Ok n.
Proof.
  intros Hf Ht F Fo HP dbg fuel rng rnd Hfu HN. pose proof (prime_field_is_field HP) as HF. destruct (test_facts f _ Hf Ht) as [HS HL]. cbn [test_shipped] in HS.
  assert (HE : t mod 2 = 0).
  { pose proof (proj1 (forallb_forall _ _) matmul_widths_even f Hf) as A. pose proof (proj1 (forallb_forall _ _) A _ Ht) as B. apply Nat.eqb_eq. exact B. }
  cbn [run_test]. assert (U : (N.of_nat 2 + N.of_nat 1 < usize_mod)%N) by (vm_compute; reflexivity).
  destruct (ProofNeptuneFin.np_new_outcome HF dbg fuel (rng 0) t 3 2 1 U) as [_ NO].
  destruct NO as [P EP]; [intros q; exists 0; split; [lia|apply HN]|split; [left; reflexivity|split; [reflexivity|exact HE]]|].
  apply (matmul_outcome HP dbg fuel (rng 0) rnd t P EP HS).
  destruct (Nat.eq_dec t 4) as [E4|E4]; [apply (fixed_pattern HP); [auto|lia]|]. destruct (Nat.eq_dec t 8) as [E8|E8]; [apply (fixed_pattern HP); [auto|lia]|].
  intros i j Hi Hj Hp. unfold np_ext_entry, np_even_block, np_odd_block. apply Nat.eqb_neq in E4. apply Nat.eqb_neq in E8. rewrite E4, E8.
  pose proof (Nat.mod_upper_bound i 2 ltac:(lia)). pose proof (Nat.mod_upper_bound j 2 ltac:(lia)). pose proof (Nat.div_mod i 2 ltac:(lia)). pose proof (Nat.div_mod j 2 ltac:(lia)). pose proof (Nat.div_mod (i + j) 2 ltac:(lia)).
  destruct (Nat.eqb_spec (i mod 2) 1) as [A|A]; destruct (Nat.eqb_spec (j mod 2) 1) as [B|B]; destruct (Nat.eqb_spec (i mod 2) 0) as [C|C]; destruct (Nat.eqb_spec (j mod 2) 0) as [D|D]; cbn [andb]; try lia; apply HN.
Qed.

Theorem all_input_24 f diag mat rc bytes : In f test_files -> In (Input24 diag mat rc bytes) (snd f) ->
  forall F (Fo : FOps F), is_prime_field Fo (fst f) -> forall dbg fuel rng rnd, run_test dbg fuel rng rnd (Input24 diag mat rc bytes) = Panic.
Proof. intros Hf Ht F Fo HP dbg fuel rng rnd. destruct (test_facts f _ Hf Ht) as [HS HL]. apply (input_24_panics HP). exact HS. Qed.

(** an instance with invertible matrices: all draws equal to two, width 4 *)
Section Two.
  Context {F : Type} {Fo : FOps F} {p : Z} (HP : is_prime_field Fo p).
  Let HF := prime_field_is_field HP.
  Add Ring FringTwo : (ff_ring _ HF).
Lemma np_good_two dbg fuel d rf rp : p <> 3%Z -> p <> 5%Z -> p <> 2%Z -> 1 <= fuel -> In d [3; 5; 7] -> rf mod 2 = 0 ->
  (N.of_nat rf + N.of_nat rp < usize_mod)%N -> exists P : NeptuneParams F, np_new dbg fuel (fun _ => f_of_Z 2) 4 d rf rp = Ok P /\ np_good P.
Proof.
  intros H3 H5 H2 Hf Hd Hrf U. pose proof (pf_p_ge_2 HP) as G.
  assert (N2 : f_of_Z 2 <> (f0 : F)) by (apply (f_of_Z_neq_0 HP); lia).
  destruct (ProofNeptuneFin.np_new_outcome HF dbg fuel (fun _ => f_of_Z 2) 4 d rf rp U) as [_ NO].
  destruct NO as [P EP]; [intros q; exists 0; split; [lia|exact N2]|split; [exact Hd|split; [exact Hrf|reflexivity]]|].
  exists P. split; [exact EP|]. destruct (ProofNeptuneFin.np_new_contents HF dbg fuel _ _ _ _ _ P EP U) as [_ [ET _]]. unfold np_good. rewrite ET. split.
  - apply (proj1 (ProofNeptuneBij.np_fixed_matrices HP dbg fuel _ _ _ _ _ P EP U)); [reflexivity|exact H3].
  - destruct (ProofNeptuneParams.np_new_draws HF dbg fuel _ _ _ _ _ P EP U) as [q [_ [L [EM _]]]].
    assert (M : forall i, i < 4 -> fadd (nth i (np_mu P) f0) f1 = f_of_Z 2).
    { intros i Hi. rewrite EM in L |- *. rewrite map_length in L. rewrite (Elim.nth_map_d _ _ i 0) by lia. cbn beta. ring. }
    apply (LinAlg.nonsingular_invertible HF). intros x Hx.
    assert (E2 : f_of_Z 2 = fadd f1 (f1 : F)) by (rewrite <- (f_of_Z_1 HP), <- (f_of_Z_add HP); reflexivity).
    assert (R : forall i, i < 4 -> fadd (fadd (fadd (fadd (x 0) (x 1)) (x 2)) (x 3)) (x i) = (f0 : F)).
    { intros i Hi. etransitivity; [|exact (Hx i Hi)]. unfold np_int_matrix. do 4 (destruct i as [|i]; [cbn [sumn Nat.eqb]; rewrite (M _ Hi), E2; ring|]). lia. }
    assert (S0 : fmul (f_of_Z 5) (fadd (fadd (fadd (x 0) (x 1)) (x 2)) (x 3)) = (f0 : F)).
    { pose proof (R 0 ltac:(lia)) as R0. pose proof (R 1 ltac:(lia)) as R1. pose proof (R 2 ltac:(lia)) as R2. pose proof (R 3 ltac:(lia)) as R3.
      set (s := fadd (fadd (fadd (x 0) (x 1)) (x 2)) (x 3)) in *.
      replace (f_of_Z 5) with (fadd (fadd (fadd (fadd f1 f1) f1) f1) (f1 : F)) by (rewrite <- (f_of_Z_1 HP), <- !(f_of_Z_add HP); reflexivity).
      transitivity (fadd (fadd (fadd (fadd s (x 0)) (fadd s (x 1))) (fadd s (x 2))) (fadd s (x 3))); [unfold s; ring|]. rewrite R0, R1, R2, R3. ring. }
    destruct (fmul_integral HF _ _ S0) as [C|C].
    + exfalso. apply (f_of_Z_eq_0 HP) in C. assert (p = 5)%Z; [|lia]. destruct C as [c Hc]. assert (0 < c)%Z by nia. assert (p <= 5)%Z by nia.
      assert (p = 4 \/ p = 5)%Z as [E4|E5] by lia; [|exact E5]. rewrite E4 in Hc. lia.
    + intros j Hj. specialize (R j Hj). rewrite C in R. transitivity (fadd f0 (x j)); [ring|exact R].
Qed.
End Two.
