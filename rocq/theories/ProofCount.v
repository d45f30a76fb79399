(** * ProofCount: bijections keep counts, and the pigeonhole principle *)
From Coq Require Import Permutation.
From Verif Require Import Base Field Spec SpecCount SpecMerkle SpecMerkleVariants ModelMerkle ModelPoseidon2 ModelPoseidon ModelGmimc ModelNeptune
  SpecPoseidon2 SpecNeptune ModelInstances SpecInstances.
From Verif Require Import ProofPoseidon.
From Verif Require ProofKats ProofGmimc ProofPoseidonFin ProofNeptuneBij ProofPoseidon2Bij ProofMerkleHash ProofMerkleFin.
Local Open Scope nat_scope.

Section S.
  Context {F : Type} {Fo : FOps F} {p : Z} (HP : is_prime_field Fo p).

  Lemma elements_all (x : F) : In x (elements p).
  Proof.
    unfold elements. apply in_map_iff. exists (Z.to_nat (f_to_Z x)). pose proof (pf_range _ _ HP x). split.
    - rewrite Z2Nat.id by lia. apply (pf_of_to _ _ HP).
    - apply in_seq. lia.
  Qed.
  Lemma elements_nodup : NoDup (elements (F := F) p).
  Proof.
    unfold elements. pose proof (pf_p_ge_2 HP).
    assert (G : forall l, NoDup l -> (forall k, In k l -> (Z.of_nat k < p)%Z) -> NoDup (map (fun k => f_of_Z (Z.of_nat k) : F) l)).
    { induction l as [|a l IH]; intros N L; [constructor|]. inversion N as [|? ? Na Nl]; subst. cbn [map]. constructor.
      - intros C. apply in_map_iff in C. destruct C as [b [E Hb]]. apply (f_equal f_to_Z) in E. rewrite !(pf_to_of _ _ HP) in E.
        rewrite !Z.mod_small in E by (split; [lia|apply L; (left; reflexivity) || (right; assumption)]). apply Nat2Z.inj in E. subst b. contradiction.
      - apply IH; [exact Nl|]. intros k Hk. apply L. right. exact Hk. }
    apply G; [apply seq_NoDup|]. intros k Hk. apply in_seq in Hk. lia.
  Qed.
  Lemma elements_length : Z.of_nat (length (elements (F := F) p)) = p.
  Proof. pose proof (pf_p_ge_2 HP). unfold elements. rewrite map_length, seq_length. lia. Qed.

  Lemma vectors_in n (x : list F) : In x (vectors p n) <-> length x = n.
  Proof.
    revert x. induction n as [|n IH]; intros x.
    - cbn [vectors In]. split; [intros [<-|[]]; reflexivity|]. intros H. destruct x; [left; reflexivity|discriminate].
    - cbn [vectors]. rewrite in_flat_map. split.
      + intros [a [_ H]]. apply in_map_iff in H. destruct H as [y [<- H]]. cbn [length]. f_equal. apply IH, H.
      + intros H. destruct x as [|a x]; [discriminate|]. exists a. split; [apply elements_all|]. apply in_map, IH. cbn [length] in H. lia.
  Qed.
  Lemma flat_nodup {A B} (f : A -> list B) l : NoDup l -> (forall a, In a l -> NoDup (f a)) -> (forall a b y, In a l -> In b l -> In y (f a) -> In y (f b) -> a = b) ->
    NoDup (flat_map f l).
  Proof.
    induction l as [|a l IH]; intros N H D; [constructor|]. inversion N as [|? ? Na Nl]; subst. cbn [flat_map].
    assert (G : forall u v : list B, NoDup u -> NoDup v -> (forall y, In y u -> In y v -> False) -> NoDup (u ++ v)).
    { induction u as [|b u IHu]; intros v Nu Nv Dis; [exact Nv|]. inversion Nu; subst. cbn [app]. constructor.
      - intros C. apply in_app_iff in C. destruct C as [C|C]; [contradiction|]. apply (Dis b); [left; reflexivity|exact C].
      - apply IHu; [assumption|exact Nv|]. intros y Hy. apply Dis. right. exact Hy. }
    apply G; [apply H; left; reflexivity|apply IH; [exact Nl|intros; apply H; right; assumption|intros b c y Hb Hc; apply D; right; assumption]|].
    intros y Hy Hy'. apply in_flat_map in Hy'. destruct Hy' as [b [Hb Hy']].
    assert (E : a = b) by (apply (D a b y); [left; reflexivity|right; exact Hb|exact Hy|exact Hy']). subst b. contradiction.
  Qed.
  Lemma vectors_nodup n : NoDup (vectors (F := F) p n).
  Proof.
    induction n as [|n IH]; cbn [vectors]; [constructor; [intros []|constructor]|]. apply flat_nodup; [apply elements_nodup| |].
    - intros a _. clear -IH. induction IH as [|x l Hx _ IHl]; cbn [map]; [constructor|]. constructor; [|exact IHl].
      intros C. apply in_map_iff in C. destruct C as [y [E Hy]]. injection E as ->. contradiction.
    - intros a b y _ _ Ha Hb. apply in_map_iff in Ha. apply in_map_iff in Hb. destruct Ha as [u [<- _]]. destruct Hb as [v [E _]]. injection E as -> _. reflexivity.
  Qed.
  Lemma filter_flat {A B} (Q : B -> bool) (f : A -> list B) l : filter Q (flat_map f l) = flat_map (fun a => filter Q (f a)) l.
  Proof.
    induction l as [|a l IH]; [reflexivity|]. cbn [flat_map]. rewrite <- IH.
    generalize (flat_map f l). intros m. induction (f a) as [|b u IHu]; [reflexivity|]. cbn [app filter]. destruct (Q b); [cbn [app]; f_equal|]; exact IHu.
  Qed.
  Lemma filter_map {A B} (Q : B -> bool) (f : A -> B) l : length (filter Q (map f l)) = length (filter (fun x => Q (f x)) l).
  Proof. induction l as [|a l IH]; [reflexivity|]. cbn [map filter]. destruct (Q (f a)); cbn [length]; rewrite IH; reflexivity. Qed.
  Lemma filter_ext' {A} (Q R : A -> bool) l : (forall x, In x l -> Q x = R x) -> filter Q l = filter R l.
  Proof. intros H. apply filter_ext_in, H. Qed.
  Lemma filter_none {A} (Q : A -> bool) l : (forall x, In x l -> Q x = false) -> filter Q l = [].
  Proof. induction l as [|a l IH]; intros H; [reflexivity|]. cbn [filter]. rewrite (H a) by (left; reflexivity). apply IH. intros; apply H; right; assumption. Qed.
  Lemma filter_every {A} (Q : A -> bool) l : (forall x, In x l -> Q x = true) -> filter Q l = l.
  Proof. induction l as [|a l IH]; intros H; [reflexivity|]. cbn [filter]. rewrite (H a) by (left; reflexivity). f_equal. apply IH. intros; apply H; right; assumption. Qed.

  Lemma vectors_length n : Z.of_nat (length (vectors (F := F) p n)) = (p ^ Z.of_nat n)%Z.
  Proof.
    induction n as [|n IH]; [reflexivity|]. cbn [vectors]. rewrite Nat2Z.inj_succ, Z.pow_succ_r by lia. rewrite <- IH.
    transitivity (Z.of_nat (length (elements (F := F) p)) * Z.of_nat (length (vectors (F := F) p n)))%Z; [|rewrite elements_length; reflexivity].
    generalize (vectors (F := F) p n). intros v. induction (elements (F := F) p) as [|a l IHl]; [reflexivity|]. cbn [flat_map length]. rewrite app_length, map_length, Nat2Z.inj_add, IHl. lia.
  Qed.
  Theorem vectors_spec n : (forall x : list F, In x (vectors p n) <-> length x = n) /\ NoDup (vectors (F := F) p n) /\ number (F := F) p n (fun _ => true) = (p ^ Z.of_nat n)%Z.
  Proof. split; [apply vectors_in|]. split; [apply vectors_nodup|]. unfold number. rewrite filter_every by reflexivity. apply vectors_length. Qed.

  Lemma perm_filter {A} (Q : A -> bool) l m : Permutation l m -> length (filter Q l) = length (filter Q m).
  Proof.
    induction 1 as [|a l m _ IH|a b l|l m k _ IH1 _ IH2]; [reflexivity| | |congruence]; cbn [filter].
    - destruct (Q a); cbn [length]; rewrite IH; reflexivity.
    - destruct (Q a), (Q b); reflexivity.
  Qed.
  Lemma map_nodup {A B} (f : A -> B) l : NoDup l -> (forall a b, In a l -> In b l -> f a = f b -> a = b) -> NoDup (map f l).
  Proof.
    induction l as [|a l IH]; intros N H; [constructor|]. inversion N; subst. cbn [map]. constructor.
    - intros C. apply in_map_iff in C. destruct C as [b [E Hb]]. rewrite (H b a) in Hb; [contradiction|right; exact Hb|left; reflexivity|exact E].
    - apply IH; [assumption|]. intros; apply H; try (right; assumption). assumption.
  Qed.

  Theorem bijective_uniform n (f : list F -> res (list F)) : bijective_on n f -> keeps_uniform p n f.
  Proof.
    intros [H1 [H2 H3]] Q. unfold number. f_equal. set (g := fun x => match f x with Ok y => y | _ => [] end).
    assert (G : forall x, length x = n -> f x = Ok (g x) /\ length (g x) = n).
    { intros x Hx. destruct (H1 x Hx) as [y [E L]]. unfold g. rewrite E. split; [reflexivity|exact L]. }
    rewrite (filter_ext' _ (fun x => Q (g x))).
    2: { intros x Hx. apply vectors_in in Hx. unfold after. rewrite (proj1 (G x Hx)). reflexivity. }
    rewrite <- filter_map. apply perm_filter. apply NoDup_Permutation.
    - apply map_nodup; [apply vectors_nodup|]. intros a b Ha Hb E. apply vectors_in in Ha. apply vectors_in in Hb.
      apply (H2 a b (g a) Ha Hb); [apply (G a Ha)|rewrite E; apply (G b Hb)].
    - apply vectors_nodup.
    - intros y. rewrite in_map_iff. split.
      + intros [x [<- Hx]]. apply vectors_in in Hx. apply vectors_in. apply (G x Hx).
      + intros Hy. apply vectors_in in Hy. destruct (H3 y Hy) as [x [Hx E]]. exists x. split; [unfold g; rewrite E; reflexivity|apply vectors_in, Hx].
  Qed.

  Fixpoint list_eqb (x y : list F) : bool :=
    match x, y with [], [] => true | a :: x, b :: y => feqb a b && list_eqb x y | _, _ => false end.
  Lemma list_eqb_ok x y : list_eqb x y = true <-> x = y.
  Proof.
    revert y. induction x as [|a x IH]; intros [|b y]; cbn [list_eqb]; try (split; [discriminate|discriminate]); [split; reflexivity|].
    rewrite andb_true_iff, IH. rewrite (ff_eqb _ (prime_field_is_field HP) a b). split; [intros [-> ->]; reflexivity|intros E; injection E; auto].
  Qed.
  Lemma number_one n y : length y = n -> number p n (list_eqb y) = 1%Z.
  Proof.
    intros Hy. unfold number. apply vectors_in in Hy. pose proof (vectors_nodup n) as N. revert Hy N. generalize (vectors (F := F) p n).
    induction l as [|x l IH]; intros Hy N; [destruct Hy|]. inversion N as [|? ? Nx Nl]; subst. cbn [filter]. destruct (list_eqb y x) eqn:E.
    - apply list_eqb_ok in E. subst x. rewrite filter_none; [reflexivity|]. intros z Hz. destruct (list_eqb y z) eqn:E; [|reflexivity].
      apply list_eqb_ok in E. subst z. contradiction.
    - apply IH; [|exact Nl]. destruct Hy as [->|Hy]; [|exact Hy]. assert (list_eqb y y = true) by now apply list_eqb_ok. congruence.
  Qed.

  Lemma filter_full {A} (Q : A -> bool) l : length (filter Q l) = length l -> forall x, In x l -> Q x = true.
  Proof.
    induction l as [|a l IH]; intros H x Hx; [destruct Hx|]. cbn [filter length] in H.
    assert (length (filter Q l) <= length l) by (clear; induction l as [|b l IHl]; [apply le_n|]; cbn [filter]; destruct (Q b); cbn [length]; lia).
    destruct (Q a) eqn:E; cbn [length] in H; [|lia]. destruct Hx as [->|Hx]; [exact E|]. apply IH; [lia|exact Hx].
  Qed.
  (** conversely *)
  Theorem uniform_bijective n (f : list F -> res (list F)) : keeps_uniform p n f -> bijective_on n f.
  Proof.
    intros H.
    assert (H1 : forall x, length x = n -> exists y, f x = Ok y /\ length y = n).
    { intros x Hx. pose proof (H (fun y => length y =? n)) as E. unfold number in E. apply Nat2Z.inj in E.
      rewrite (filter_every (fun y => length y =? n)) in E by (intros y Hy; apply vectors_in in Hy; apply Nat.eqb_eq, Hy).
      pose proof (filter_full _ _ E x (proj2 (vectors_in n x) Hx)) as K. unfold after in K. destruct (f x) as [y| |]; try discriminate.
      exists y. split; [reflexivity|apply Nat.eqb_eq, K]. }
    split; [exact H1|].
    assert (K : forall y, length y = n -> exists x, filter (after f (list_eqb y)) (vectors p n) = [x]).
    { intros y Hy. specialize (H (list_eqb y)). rewrite number_one in H by exact Hy. unfold number in H.
      destruct (filter _ _) as [|x [|x' l]]; cbn [length] in H; [lia|exists x; reflexivity|lia]. }
    assert (I : forall x y, length x = n -> f x = Ok y -> In x (filter (after f (list_eqb y)) (vectors p n))).
    { intros x y Hx E. apply filter_In. split; [apply vectors_in, Hx|]. unfold after. rewrite E. apply list_eqb_ok. reflexivity. }
    split.
    - intros x x' y Hx Hx' E E'. assert (Hy : length y = n) by (destruct (H1 x Hx) as [z [E1 L]]; congruence).
      destruct (K y Hy) as [z Ez]. pose proof (I x y Hx E) as A. pose proof (I x' y Hx' E') as B. rewrite Ez in A, B.
      destruct A as [<-|[]]. destruct B as [<-|[]]. reflexivity.
    - intros y Hy. destruct (K y Hy) as [x Ex]. exists x.
      assert (A : In x (filter (after f (list_eqb y)) (vectors p n))) by (rewrite Ex; left; reflexivity).
      apply filter_In in A. destruct A as [A B]. apply vectors_in in A. split; [exact A|]. unfold after in B. destruct (f x) as [z| |]; try discriminate.
      apply list_eqb_ok in B. now subst z.
  Qed.

  (** one word *)
  Lemma word_count n k h : k < n -> number p n (word_is k h) = (p ^ Z.of_nat (n - 1))%Z.
  Proof.
    revert k. unfold number. induction n as [|n IH]; intros k Hk; [lia|]. cbn [vectors]. rewrite filter_flat. replace (S n - 1) with n by lia.
    destruct k as [|k].
    - pose proof (elements_all h) as Hh. pose proof elements_nodup as N. revert Hh N. generalize (elements (F := F) p).
      induction l as [|a l IHl]; intros Hh N; [destruct Hh|]. inversion N as [|? ? Na Nl]; subst. cbn [flat_map]. rewrite app_length, Nat2Z.inj_add.
      destruct (feqb a h) eqn:E.
      + assert (a = h) by now apply (ff_eqb _ (prime_field_is_field HP)). subst a.
        rewrite filter_every by (intros x Hx; apply in_map_iff in Hx; destruct Hx as [u [<- _]]; exact E). rewrite map_length, vectors_length.
        assert (Z0 : flat_map (fun a => filter (word_is 0 h) (map (cons a) (vectors p n))) l = []).
        { clear -Na HP. induction l as [|b l IHl]; [reflexivity|]. cbn [flat_map]. rewrite IHl by (intros C; apply Na; right; exact C).
          rewrite filter_none; [reflexivity|]. intros x Hx. apply in_map_iff in Hx. destruct Hx as [u [<- _]]. unfold word_is. cbn [nth].
          destruct (feqb b h) eqn:E; [|reflexivity]. apply (ff_eqb _ (prime_field_is_field HP)) in E. subst b. destruct Na. left. reflexivity. }
        rewrite Z0. cbn [length]. lia.
      + rewrite filter_none by (intros x Hx; apply in_map_iff in Hx; destruct Hx as [u [<- _]]; exact E). cbn [length]. rewrite Z.add_0_l.
        apply IHl; [|exact Nl]. destruct Hh as [->|Hh]; [|exact Hh]. assert (feqb h h = true) by now apply (ff_eqb _ (prime_field_is_field HP)). congruence.
    - assert (E : forall a : F, Z.of_nat (length (filter (word_is (S k) h) (map (cons a) (vectors p n)))) = (p ^ Z.of_nat (n - 1))%Z).
      { intros a. rewrite filter_map. apply (IH k ltac:(lia)). }
      replace (Z.of_nat n) with (Z.succ (Z.of_nat (n - 1))) by lia. rewrite Z.pow_succ_r by lia. 
      transitivity (Z.of_nat (length (elements (F := F) p)) * p ^ Z.of_nat (n - 1))%Z; [|rewrite elements_length; reflexivity].
      revert E. generalize (p ^ Z.of_nat (n - 1))%Z (vectors (F := F) p n). intros B v E. induction (elements (F := F) p) as [|a l IHl]; [reflexivity|]. cbn [flat_map length]. rewrite app_length, Nat2Z.inj_add, IHl, E. lia.
  Qed.
  Theorem uniform_word n (f : list F -> res (list F)) k h : bijective_on n f -> k < n -> number p n (after f (word_is k h)) = (p ^ Z.of_nat (n - 1))%Z.
  Proof. intros H Hk. rewrite (bijective_uniform n f H). apply word_count, Hk. Qed.

  (** pigeonhole *)
  Lemma pigeon n (g : list F -> res F) : 1 <= n -> (forall x, length x = n -> exists y, g x = Ok y) -> exists h, (p ^ Z.of_nat (n - 1) <= number p n (gives g h))%Z.
  Proof.
    intros Hn H.
    assert (Sm : forall l : list (list F), (forall x, In x l -> length x = n) ->
      fold_right Z.add 0%Z (map (fun h => Z.of_nat (length (filter (gives g h) l))) (elements p)) = Z.of_nat (length l)).
    { induction l as [|x l IH]; intros Hl.
      - cbn [filter length]. induction (elements (F := F) p) as [|a m IHm]; [reflexivity|]. cbn [map fold_right]. rewrite IHm. reflexivity.
      - cbn [length]. rewrite Nat2Z.inj_succ, <- IH by (intros; apply Hl; right; assumption).
        destruct (H x (Hl x (or_introl eq_refl))) as [y E]. pose proof (elements_all y) as Hy. pose proof elements_nodup as N. revert Hy N.
        generalize (elements (F := F) p). induction l0 as [|a m IHm]; intros Hy N; [destruct Hy|]. inversion N as [|? ? Na Nl]; subst. cbn [map fold_right].
        cbn [filter]. replace (gives g a x) with (feqb y a) by (unfold gives; rewrite E; reflexivity). destruct (feqb y a) eqn:Q.
        + assert (y = a) by now apply (ff_eqb _ (prime_field_is_field HP)). subst a. cbn [length].
          rewrite (map_ext_in (fun h => Z.of_nat (length (if gives g h x then x :: filter (gives g h) l else filter (gives g h) l))) (fun h => Z.of_nat (length (filter (gives g h) l)))).
          * lia.
          * intros b Hb. replace (gives g b x) with false; [reflexivity|]. unfold gives. rewrite E. destruct (feqb y b) eqn:Q'; [|reflexivity].
            apply (ff_eqb _ (prime_field_is_field HP)) in Q'. subst b. contradiction.
        + cbn [filter] in IHm. rewrite IHm; [lia| |exact Nl].
          destruct Hy as [->|Hy]; [|exact Hy]. assert (feqb y y = true) by now apply (ff_eqb _ (prime_field_is_field HP)). congruence. }
    specialize (Sm (vectors p n) (fun x => proj1 (vectors_in n x))). rewrite vectors_length in Sm.
    replace (Z.of_nat n) with (Z.succ (Z.of_nat (n - 1))) in Sm by lia. rewrite Z.pow_succ_r in Sm by lia. unfold number.
    set (B := (p ^ Z.of_nat (n - 1))%Z) in *. pose proof elements_length as L. pose proof (pf_p_ge_2 HP).
    assert (G : forall l : list F, l <> [] -> (Z.of_nat (length l) * B <= fold_right Z.add 0 (map (fun h => Z.of_nat (length (filter (gives g h) (vectors p n)))) l))%Z ->
      exists h, (B <= Z.of_nat (length (filter (gives g h) (vectors p n))))%Z).
    { induction l as [|a l IH]; intros Hne Hs; [contradiction|]. cbn [map fold_right length] in Hs.
      destruct (Z_le_gt_dec B (Z.of_nat (length (filter (gives g a) (vectors p n))))) as [Y|Y]; [exists a; exact Y|].
      destruct l as [|b l]; [cbn [length map fold_right] in Hs; lia|]. apply IH; [discriminate|]. lia. }
    apply (G (elements p)); [intros C; rewrite C in L; cbn in L; lia|]. rewrite L, Sm. lia.
  Qed.
  Lemma two_of (n : nat) (g : list F -> res F) h : (2 <= number p n (gives g h))%Z ->
    exists x x', length x = n /\ length x' = n /\ x <> x' /\ g x = Ok h /\ g x' = Ok h.
  Proof.
    unfold number. intros H. pose proof (NoDup_filter (gives g h) (vectors_nodup n)) as N.
    assert (I : forall x, In x (filter (gives g h) (vectors p n)) -> length x = n /\ g x = Ok h).
    { intros x Hx. apply filter_In in Hx. destruct Hx as [A B]. split; [apply vectors_in, A|]. unfold gives in B. destruct (g x) as [y| |]; try discriminate.
      f_equal. apply (ff_eqb _ (prime_field_is_field HP)), B. }
    destruct (filter _ _) as [|x [|x' l]]; cbn [length] in H; [lia|lia|]. exists x, x'.
    destruct (I x (or_introl eq_refl)). destruct (I x' (or_intror (or_introl eq_refl))). repeat split; try assumption.
    intros ->. inversion N as [|? ? A _]; subst. apply A. left. reflexivity.
  Qed.
  Lemma must n (g : list F -> res F) : 1 <= n -> (forall x, length x = n -> exists y, g x = Ok y) -> must_collide p n g.
  Proof.
    intros Hn H. destruct (pigeon n g Hn H) as [h Hh]. exists h. split; [exact Hh|]. intros H2. apply two_of.
    apply Z.le_trans with (2 := Hh). pose proof (pf_p_ge_2 HP). replace (Z.of_nat (n - 1)) with (Z.succ (Z.of_nat (n - 2))) by lia.
    rewrite Z.pow_succ_r by lia. assert (0 < p ^ Z.of_nat (n - 2))%Z by (apply Z.pow_pos_nonneg; lia). nia.
  Qed.
End S.

Section Code.
  Context {F : Type} {Fo : FOps F} {p : Z} (HP : is_prime_field Fo p).

  Theorem uniform_iff n (f : list F -> res (list F)) : keeps_uniform p n f <-> bijective_on n f.
  Proof. split; [apply (uniform_bijective HP)|apply (bijective_uniform HP)]. Qed.

  Theorem p2_uniform dbg t d rf rp (diag : list F) (mi rc : list (list F)) P :
    p2_new dbg t d rf rp diag mi rc = Ok P -> (N.of_nat rf + N.of_nat rp < usize_mod)%N ->
    p2_width t -> sbox_degree d -> p2_data_ok t rf rp diag rc ->
    (keeps_uniform p t (p2_permutation dbg P) <->
     (rf + rp = 0 \/ Z.gcd (Z.of_nat d) (p - 1) = 1%Z) /\ ~ In p (ext_bad_primes t) /\ (rp = 0 \/ invertible t (int_matrix t diag))).
  Proof. intros H Hov Hw Hd D. rewrite uniform_iff. apply (ProofPoseidon2Bij.p2_permutation_bijective_iff HP dbg t d rf rp diag mi rc P H Hov Hw Hd D). Qed.
  Theorem ps_uniform dbg t d rf rp (mds rc : list (list F)) P :
    ps_new dbg t d rf rp mds rc = Ok P -> (N.of_nat rf + N.of_nat rp < usize_mod)%N -> dims t t mds -> ps_rows_ok t rf rp rc ->
    (keeps_uniform p t (ps_permutation dbg P) <-> Z.gcd (Z.of_nat d) (p - 1) = 1%Z) /\
    (keeps_uniform p t (ps_permutation_not_opt dbg P) <-> Z.gcd (Z.of_nat d) (p - 1) = 1%Z).
  Proof. intros H Hov D R. rewrite !uniform_iff. apply (ProofPoseidonFin.ps_permutation_bijective_iff HP dbg t d rf rp mds rc P H Hov D R). Qed.
  Theorem gm_uniform dbg rng t d rounds (P : GmimcParams F) : gm_new rng t d rounds = Ok P -> 1 <= t -> 1 <= rounds ->
    keeps_uniform p t (gm_permutation dbg P) /\ keeps_uniform p t (gm_permutation_not_opt dbg P).
  Proof. intros H Ht Hr. 
    pose proof (ProofGmimc.gm_bijective (prime_field_is_field HP) dbg rng t d rounds P H Ht Hr) as B. split; apply uniform_iff; [exact B|].
    unfold bijective_on in *. setoid_rewrite <- (fun x => ProofGmimc.gm_opt_eq (prime_field_is_field HP) dbg rng t d rounds P x H). exact B.
  Qed.
  Theorem np_uniform dbg fuel rng t d rf rp (P : NeptuneParams F) :
    np_new dbg fuel rng t d rf rp = Ok P -> (N.of_nat rf + N.of_nat rp < usize_mod)%N -> 2 <= t ->
    (keeps_uniform p t (np_permutation dbg P) <->
     invertible t (entry (np_m_e P)) /\ (rf = 0 \/ p <> 5%Z) /\
     (rp = 0 \/ (invertible t (np_int_matrix (fun i => fadd (nth i (np_mu P) f0) f1)) /\ Z.gcd (Z.of_nat d) (p - 1) = 1%Z))).
  Proof. intros H Hov Ht. rewrite uniform_iff. apply (ProofNeptuneBij.np_bijective_iff HP dbg fuel rng t d rf rp P H Hov Ht). Qed.

  (** compression *)
  Lemma claim_collide t w z wf dbg compress (ref : list F -> list F) : compress_claim f0 t w z wf dbg compress ref -> t = w -> wf ->
    must_collide p 2 compress /\ forall fuel n, 64 <= fuel -> 1 <= n -> (N.of_nat n <= 2 ^ 63)%N -> must_collide p n (fp_accumulate dbg fuel compress).
  Proof.
    intros [_ [_ [H1 H2]]] Ht Hwf. split.
    - apply (must HP); [lia|]. intros [|a [|b [|c x]]] Hx; try discriminate. eexists. apply (H1 Ht Hwf).
    - intros fuel n Hf Hn Hm. apply (must HP); [exact Hn|]. intros x Hx.
      destruct (proj2 (H2 fuel x Hf ltac:(rewrite Hx; exact Hm)) Ht Hwf) as [root [_ E]]; [intros ->; cbn in Hx; lia|]. exists root. exact E.
  Qed.
  Theorem p2_collide dbg d rf rp (diag : list F) (mi rc : list (list F)) P :
    p2_new dbg 3 d rf rp diag mi rc = Ok P -> (N.of_nat rf + N.of_nat rp < usize_mod)%N -> sbox_degree d -> p2_data_ok 3 rf rp diag rc ->
    must_collide p 2 (p2_compress dbg P) /\ forall fuel n, 64 <= fuel -> 1 <= n -> (N.of_nat n <= 2 ^ 63)%N -> must_collide p n (fp_accumulate dbg fuel (p2_compress dbg P)).
  Proof. intros H Hov Hd D. apply (claim_collide _ _ _ _ _ _ _ (ProofMerkleHash.p2_compress_claim (prime_field_is_field HP) _ _ _ _ _ _ _ _ _ H Hov) eq_refl). split; assumption. Qed.
  Theorem ps_collide dbg d rf rp (mds rc : list (list F)) P :
    ps_new dbg 3 d rf rp mds rc = Ok P -> (N.of_nat rf + N.of_nat rp < usize_mod)%N -> dims 3 3 mds -> ps_rows_ok 3 rf rp rc ->
    must_collide p 2 (ps_compress dbg P) /\ forall fuel n, 64 <= fuel -> 1 <= n -> (N.of_nat n <= 2 ^ 63)%N -> must_collide p n (fp_accumulate dbg fuel (ps_compress dbg P)).
  Proof. intros H Hov D R. apply (claim_collide _ _ _ _ _ _ _ (ProofMerkleHash.ps_compress_claim (prime_field_is_field HP) _ _ _ _ _ _ _ _ H Hov) eq_refl). split; assumption. Qed.
  Theorem gm_collide dbg rng d rounds (P : GmimcParams F) : gm_new rng 3 d rounds = Ok P -> 1 <= rounds ->
    must_collide p 2 (gm_compress dbg P) /\ forall fuel n, 64 <= fuel -> 1 <= n -> (N.of_nat n <= 2 ^ 63)%N -> must_collide p n (fp_accumulate dbg fuel (gm_compress dbg P)).
  Proof. intros H Hr. apply (claim_collide _ _ _ _ _ _ _ (ProofMerkleHash.gm_compress_claim (prime_field_is_field HP) dbg _ _ _ _ _ H) eq_refl Hr). Qed.
  Theorem np_collide dbg fuel rng d rf rp (P : NeptuneParams F) : np_new dbg fuel rng 4 d rf rp = Ok P -> (N.of_nat rf + N.of_nat rp < usize_mod)%N ->
    must_collide p 2 (np_compress dbg P) /\ forall fuel n, 64 <= fuel -> 1 <= n -> (N.of_nat n <= 2 ^ 63)%N -> must_collide p n (fp_accumulate dbg fuel (np_compress dbg P)).
  Proof. intros H Hov. apply (claim_collide _ _ _ _ _ _ _ (ProofMerkleHash.np_compress_claim HP _ _ _ _ _ _ _ _ H Hov) eq_refl Logic.I). Qed.
End Code.

(** the shipped instances *)
Theorem p2_shipped_words I : In I p2_instances -> forall F (Fo : FOps F), is_prime_field Fo (qi_p I) -> forall dbg,
  exists Q, p2_instance_params dbg I = Ok Q /\ keeps_uniform (qi_p I) (qi_t I) (p2_permutation dbg Q) /\
    forall k h, k < qi_t I -> number (qi_p I) (qi_t I) (after (p2_permutation dbg Q) (word_is k h)) = (qi_p I ^ Z.of_nat (qi_t I - 1))%Z.
Proof.
  intros HI F Fo HP dbg. destruct (ProofKats.p2_shipped_permutation I HI F Fo HP dbg) as [Q [E [B _]]]. exists Q. split; [exact E|]. split.
  - apply (uniform_iff HP), B.
  - intros k h Hk. apply (uniform_word HP); assumption.
Qed.
Theorem ps_shipped_words I : In I ps_instances -> forall F (Fo : FOps F), is_prime_field Fo (si_p I) -> forall dbg,
  exists Q, ps_instance_params dbg I = Ok Q /\ keeps_uniform (si_p I) (si_t I) (ps_permutation dbg Q) /\
    forall k h, k < si_t I -> number (si_p I) (si_t I) (after (ps_permutation dbg Q) (word_is k h)) = (si_p I ^ Z.of_nat (si_t I - 1))%Z.
Proof.
  intros HI F Fo HP dbg. destruct (ProofKats.ps_shipped_permutation I HI) as [_ H]. destruct (H F Fo HP dbg) as [Q [E [_ [B _]]]]. exists Q. split; [exact E|]. split.
  - apply (uniform_iff HP), B.
  - intros k h Hk. apply (uniform_word HP); assumption.
Qed.
