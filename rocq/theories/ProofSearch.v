(** * ProofSearch: the search for round numbers returns the cheapest admissible pair (C71) *)
From Coq Require Import Reals ZArith List Lia Lra.
From Verif Require Import SpecRounds ModelFields ModelInstances ModelScript ProofScript.
From Verif Require ProofScript2 ProofRounds.
Import ListNotations.
Local Open Scope Z_scope.

Definition infl (mar : bool) (rp : Z) : Z := if mar then (rp * 1075 + 999) / 1000 else rp.
Definition more (mar : bool) (rf : Z) : Z := if mar then rf + 2 else rf.
Definition cost (mar : bool) (t rf rp : Z) : Z := t * more mar rf + infl mar rp.

Lemma infl_ge mar rp : 0 <= rp -> rp <= infl mar rp.
Proof. intros H. unfold infl. destruct mar; [|lia]. apply Z.div_le_lower_bound; lia. Qed.

Section Search.
  Variables (sat : Z -> Z -> bool) (t : Z) (mar : bool).
  Hypothesis Ht : 1 <= t.

  (** one comparison *)
  Definition offer (b : found) (R_F R_P : Z) : found :=
    let c := t * R_F + R_P in
    if match fd_cost b with None => true | Some m => (c <? m) || ((c =? m) && (R_F <? fd_max_rf b)) end%bool
    then Found R_P R_F (Some c) R_F else b.
  Lemma step_hit rp b rf : Z.even rf = true -> sat rf rp = true ->
    search_step sat t mar (rp, b) rf = (infl mar rp, offer b (more mar rf) (infl mar rp)).
  Proof. intros H1 H2. unfold search_step. rewrite H1, H2. unfold offer, infl, more, get_sbox_cost. destruct mar; reflexivity. Qed.
  Lemma step_miss rp b rf : Z.even rf = false \/ sat rf rp = false -> search_step sat t mar (rp, b) rf = (rp, b).
  Proof. intros H. unfold search_step. destruct (Z.even rf); [|reflexivity]. destruct H as [H|H]; [discriminate|rewrite H; reflexivity]. Qed.

  Definition sorted_from (c : Z) (l : list Z) : Prop := forall x, In x l -> c < x.

  (** after a hit nothing changes *)
  Lemma inner_rest l : forall rp b c m, 0 <= rp -> fd_cost b = Some m -> m <= t * more mar c + rp -> sorted_from c l ->
    snd (fold_left (search_step sat t mar) l (rp, b)) = b.
  Proof.
    induction l as [|x l IH]; intros rp b c m H0 Hm Hle Hs; [reflexivity|]. cbn [fold_left].
    assert (Hx : c < x) by (apply Hs; left; reflexivity).
    assert (Hs' : sorted_from c l) by (intros y Hy; apply Hs; right; exact Hy).
    destruct (Z.even x) eqn:Ev; [destruct (sat x rp) eqn:Es|].
    - rewrite step_hit by assumption. pose proof (infl_ge mar rp H0) as G.
      assert (M : t * more mar c < t * more mar x) by (unfold more; destruct mar; nia).
      replace (offer b (more mar x) (infl mar rp)) with b; [apply (IH _ _ c m); [lia|exact Hm|lia|exact Hs']|].
      unfold offer. rewrite Hm. replace (t * more mar x + infl mar rp <? m) with false by (symmetry; apply Z.ltb_ge; lia).
      replace (t * more mar x + infl mar rp =? m) with false by (symmetry; apply Z.eqb_neq; lia). reflexivity.
    - rewrite step_miss by (right; exact Es). apply (IH _ _ c m); assumption.
    - rewrite step_miss by (left; exact Ev). apply (IH _ _ c m); assumption.
  Qed.

  Definition hit (l : list Z) (rf rp : Z) : Prop := In rf l /\ Z.even rf = true /\ sat rf rp = true.

  (** [b] holds the best of the pairs in [S] *)
  Definition best (S : Z -> Z -> Prop) (b : found) : Prop :=
    (fd_cost b = None /\ fd_rf b = 0 /\ fd_rp b = 0 /\ forall rf rp, ~ S rf rp) \/
    (exists rf rp, S rf rp /\ fd_rf b = more mar rf /\ fd_rp b = infl mar rp /\ fd_max_rf b = more mar rf /\ fd_cost b = Some (cost mar t rf rp) /\
       forall rf' rp', S rf' rp' -> cost mar t rf rp < cost mar t rf' rp' \/ (cost mar t rf rp = cost mar t rf' rp' /\ rf <= rf')).

  Lemma offer_best S b rf rp : best S b -> best (fun x y => S x y \/ (x = rf /\ y = rp)) (offer b (more mar rf) (infl mar rp)).
  Proof.
    intros H. unfold offer. fold (cost mar t rf rp). destruct H as [[H1 [H2 [H3 H4]]]|[rf0 [rp0 [H1 [H2 [H3 [H4 [H5 H6]]]]]]]].
    - rewrite H1. right. exists rf, rp. cbn. repeat split; [right; split; reflexivity|].
      intros rf' rp' [C|[-> ->]]; [destruct (H4 _ _ C)|right; split; [reflexivity|lia]].
    - rewrite H5, H4.
      assert (MR : forall a b, (more mar a <? more mar b) = (a <? b)).
      { intros x y. unfold more. destruct mar; [|reflexivity]. destruct (Z.ltb_spec (x + 2) (y + 2)), (Z.ltb_spec x y); lia || reflexivity. }
      rewrite MR. destruct (Z.ltb_spec (cost mar t rf rp) (cost mar t rf0 rp0)) as [C|C]; cbn [orb].
      + right. exists rf, rp. cbn. repeat split; [right; split; reflexivity|].
        intros rf' rp' [K|[-> ->]]; [left; destruct (H6 _ _ K) as [D|[D _]]; lia|right; split; [reflexivity|lia]].
      + destruct (Z.eqb_spec (cost mar t rf rp) (cost mar t rf0 rp0)) as [D|D]; cbn [andb].
        * destruct (Z.ltb_spec rf rf0) as [L|L].
          -- right. exists rf, rp. cbn. repeat split; [right; split; reflexivity|].
             intros rf' rp' [K|[-> ->]]; [destruct (H6 _ _ K) as [E|[E E']]; lia|right; split; [reflexivity|lia]].
          -- right. exists rf0, rp0. repeat split; try assumption; [left; exact H1|].
             intros rf' rp' [K|[-> ->]]; [exact (H6 _ _ K)|right; split; [symmetry; exact D|exact L]].
        * right. exists rf0, rp0. repeat split; try assumption; [left; exact H1|].
          intros rf' rp' [K|[-> ->]]; [exact (H6 _ _ K)|left; lia].
  Qed.
  Lemma best_ext (S S' : Z -> Z -> Prop) b : (forall x y, S x y <-> S' x y) -> best S b -> best S' b.
  Proof.
    intros E [[H1 [H2 [H3 H4]]]|[rf [rp [H1 [H2 [H3 [H4 [H5 H6]]]]]]]].
    - left. repeat split; try assumption. intros x y C. exact (H4 x y (proj2 (E x y) C)).
    - right. exists rf, rp. repeat split; try assumption; [apply E; exact H1|]. intros x y C. apply H6, E, C.
  Qed.
  (** pairs that cost more do not matter *)
  Lemma best_add (S S' : Z -> Z -> Prop) b rf rp : best S b -> S rf rp -> (forall x y, S x y -> S' x y) ->
    (forall x y, S' x y -> S x y \/ cost mar t rf rp < cost mar t x y) -> best S' b.
  Proof.
    intros [[_ [_ [_ H]]]|[rf0 [rp0 [H1 [H2 [H3 [H4 [H5 H6]]]]]]]] Hs I1 I2; [destruct (H _ _ Hs)|].
    right. exists rf0, rp0. repeat split; try assumption; [apply I1; exact H1|].
    intros x y C. destruct (I2 x y C) as [D|D]; [exact (H6 _ _ D)|]. left. destruct (H6 _ _ Hs) as [K|[K _]]; lia.
  Qed.

  Inductive increasing : Z -> list Z -> Prop :=
  | inc_nil c : increasing c []
  | inc_cons c x l : c < x -> increasing x l -> increasing c (x :: l).
  Lemma increasing_from l : forall c, increasing c l -> sorted_from c l.
  Proof.
    induction l as [|x l IH]; intros c H y Hy; [destruct Hy|]. inversion H as [|? ? ? A B]; subst. destruct Hy as [<-|Hy]; [exact A|].
    specialize (IH x B y Hy). lia.
  Qed.

  Lemma inner_best l : forall c rp b S, increasing c l -> 0 <= rp -> best S b ->
    best (fun x y => S x y \/ (y = rp /\ hit l x rp)) (snd (fold_left (search_step sat t mar) l (rp, b))).
  Proof.
    induction l as [|x l IH]; intros c rp b S Hi H0 HB.
    - cbn. apply (best_ext S); [|exact HB]. intros u v. split; [auto|]. intros [H|[_ [[] _]]]. exact H.
    - inversion Hi as [|? ? ? A B]; subst. cbn [fold_left].
      destruct (Z.even x) eqn:Ev; [destruct (sat x rp) eqn:Es|].
      + rewrite step_hit by assumption. pose proof (offer_best S b x rp HB) as HO.
        assert (C : exists m, fd_cost (offer b (more mar x) (infl mar rp)) = Some m /\ m <= t * more mar x + infl mar rp).
        { destruct HO as [[_ [_ [_ H]]]|[rf0 [rp0 [_ [_ [_ [_ [H5 H6]]]]]]]]; [exfalso; apply (H x rp); right; split; reflexivity|].
          exists (cost mar t rf0 rp0). split; [exact H5|]. fold (cost mar t x rp). destruct (H6 x rp) as [K|[K _]]; [right; split; reflexivity|lia..]. }
        destruct C as [m [C1 C2]]. pose proof (infl_ge mar rp H0) as G.
        rewrite (inner_rest l _ _ x m); [|lia|exact C1|exact C2|apply increasing_from; exact B].
        apply (best_add _ _ _ x rp HO).
        * right. split; reflexivity.
        * intros u v [K|[-> ->]]; [left; exact K|right]. split; [reflexivity|]. split; [left; reflexivity|split; assumption].
        * intros u v [K|[-> [K _]]]; [left; left; exact K|]. destruct K as [<-|K]; [left; right; split; reflexivity|].
          right. apply (increasing_from l x B) in K. unfold cost, more. destruct mar; nia.
      + rewrite step_miss by (right; exact Es). apply (best_ext (fun u v => S u v \/ (v = rp /\ hit l u rp))); [|apply (IH x); assumption].
        intros u v. split; (intros [K|[E [K1 [K2 K3]]]]; [left; exact K|right; split; [exact E|]]).
        * split; [right; exact K1|split; assumption].
        * destruct K1 as [<-|K1]; [congruence|split; [exact K1|split; assumption]].
      + rewrite step_miss by (left; exact Ev). apply (best_ext (fun u v => S u v \/ (v = rp /\ hit l u rp))); [|apply (IH x); assumption].
        intros u v. split; (intros [K|[E [K1 [K2 K3]]]]; [left; exact K|right; split; [exact E|]]).
        * split; [right; exact K1|split; assumption].
        * destruct K1 as [<-|K1]; [congruence|split; [exact K1|split; assumption]].
  Qed.

  Lemma outer_best l0 c : increasing c l0 -> forall l b S, (forall y, In y l -> 0 <= y) -> best S b ->
    best (fun x y => S x y \/ (In y l /\ hit l0 x y)) (fold_left (fun b R_P_t => snd (fold_left (search_step sat t mar) l0 (R_P_t, b))) l b).
  Proof.
    intros Hi. induction l as [|y l IH]; intros b S H0 HB.
    - cbn. apply (best_ext S); [|exact HB]. intros u v. split; [auto|]. intros [H|[[] _]]. exact H.
    - cbn [fold_left]. apply (best_ext (fun u v => (S u v \/ (v = y /\ hit l0 u y)) \/ (In v l /\ hit l0 u v))).
      + intros u v. split.
        * intros [[K|[-> K]]|[K1 K2]]; [left; exact K|right; split; [left; reflexivity|exact K]|right; split; [right; exact K1|exact K2]].
        * intros [K|[[<-|K1] K2]]; [left; left; exact K|left; right; split; [reflexivity|exact K2]|right; split; assumption].
      + apply IH; [intros z Hz; apply H0; right; exact Hz|]. apply (inner_best l0 c); [exact Hi|apply H0; left; reflexivity|exact HB].
  Qed.

  Lemma range_increasing a n : forall c, c < Z.of_nat a -> increasing c (map Z.of_nat (seq a n)).
  Proof. revert a. induction n as [|n IH]; intros a c Hc; cbn; constructor; [exact Hc|]. apply IH. lia. Qed.
  Lemma In_range a b x : In x (range a b) <-> Z.of_nat a <= x < Z.of_nat b.
  Proof.
    unfold range. rewrite in_map_iff. split.
    - intros [k [<- Hk]]. apply in_seq in Hk. lia.
    - intros H. exists (Z.to_nat x). split; [lia|]. apply in_seq. lia.
  Qed.

  Definition admissible (rf rp : Z) : Prop := 4 <= rf < 100 /\ Z.even rf = true /\ 1 <= rp < 500 /\ sat rf rp = true.

  Theorem find_best : let '(R_F, R_P) := find_FD_round_numbers sat t mar in
    (R_F = 0 /\ R_P = 0 /\ forall rf rp, ~ admissible rf rp) \/
    (exists rf rp, admissible rf rp /\ R_F = more mar rf /\ R_P = infl mar rp /\
       forall rf' rp', admissible rf' rp' -> cost mar t rf rp < cost mar t rf' rp' \/ (cost mar t rf rp = cost mar t rf' rp' /\ rf <= rf')).
  Proof.
    unfold find_FD_round_numbers. cbv zeta.
    pose proof (outer_best (range 4 100) 3 (range_increasing 4 96 3 eq_refl) (range 1 500) (Found 0 0 None 0) (fun _ _ => False)) as B.
    set (b := fold_left _ (range 1 500) _) in *. clearbody b.
    assert (E : forall x y, (False \/ (In y (range 1 500) /\ hit (range 4 100) x y)) <-> admissible x y).
    { intros x y. unfold hit, admissible. rewrite !In_range. change (Z.of_nat 4) with 4. change (Z.of_nat 100) with 100. change (Z.of_nat 1) with 1. change (Z.of_nat 500) with 500. tauto. }
    destruct B as [[H1 [H2 [H3 H4]]]|[rf [rp [H1 [H2 [H3 [H4 [H5 H6]]]]]]]].
    - intros y Hy. apply In_range in Hy. lia.
    - left. repeat split. intros x y C. exact C.
    - left. split; [exact H2|]. split; [exact H3|]. intros rf rp C. apply (H4 rf rp). apply E. exact C.
    - right. exists rf, rp. split; [apply E; exact H1|]. split; [exact H2|]. split; [exact H3|]. intros x y C. apply H6, E, C.
  Qed.
End Search.

(** ** In terms of the real numbers of the script *)
Lemma infl_is_ceil rp : is_ceil (1075 / 1000 * IZR rp)%R (infl true rp).
Proof.
  unfold infl. set (k := (rp * 1075 + 999) / 1000).
  assert (A : 1000 * (k - 1) < 1075 * rp <= 1000 * k).
  { unfold k. pose proof (Z.div_mod (rp * 1075 + 999) 1000 ltac:(lia)). pose proof (Z.mod_pos_bound (rp * 1075 + 999) 1000 ltac:(lia)). lia. }
  destruct A as [A1 A2]. apply IZR_lt in A1. apply IZR_le in A2. rewrite !mult_IZR, minus_IZR in A1. rewrite !mult_IZR in A2. unfold is_ceil. lra.
Qed.
Lemma infl_ceil rp k : is_ceil (1075 / 1000 * IZR rp)%R k -> k = infl true rp.
Proof. intros H. exact (ProofRounds.is_ceil_fun _ _ _ H (infl_is_ceil rp)). Qed.

(** what a pair becomes: with the security margin two more full rounds and 7.5 % more partial rounds *)
Definition becomes (mar : bool) (rf rp R_F R_P : Z) : Prop :=
  if mar then R_F = rf + 2 /\ is_ceil (1075 / 1000 * IZR rp)%R R_P else R_F = rf /\ R_P = rp.
Lemma becomes_iff mar rf rp R_F R_P : becomes mar rf rp R_F R_P <-> R_F = more mar rf /\ R_P = infl mar rp.
Proof.
  unfold becomes, more. destruct mar; [|reflexivity]. split; intros [A B]; (split; [exact A|]).
  - apply infl_ceil; exact B.
  - rewrite B. apply infl_is_ceil.
Qed.

Theorem search_optimal sat t mar R_F R_P : 1 <= t -> find_FD_round_numbers sat t mar = (R_F, R_P) ->
  (exists rf rp, admissible sat rf rp /\ becomes mar rf rp R_F R_P) /\
  (forall rf rp R_F' R_P', admissible sat rf rp -> becomes mar rf rp R_F' R_P' ->
     t * R_F + R_P < t * R_F' + R_P' \/ (t * R_F + R_P = t * R_F' + R_P' /\ R_F <= R_F')) \/
  (R_F = 0 /\ R_P = 0 /\ forall rf rp, ~ admissible sat rf rp).
Proof.
  intros Ht E. pose proof (find_best sat t mar Ht) as B. rewrite E in B. destruct B as [B|[rf [rp [A [E1 [E2 B]]]]]]; [right; exact B|left]. split.
  - exists rf, rp. split; [exact A|]. apply becomes_iff. split; assumption.
  - intros rf' rp' R_F' R_P' A' H. apply becomes_iff in H. destruct H as [-> ->]. rewrite E1, E2. specialize (B rf' rp' A'). unfold cost in B.
    destruct B as [B|[B L]]; [left; exact B|right; split; [exact B|]]. unfold more. destruct mar; lia.
Qed.

(** ** The size of the rounds *)
Lemma ceil_mul n t : 1 <= t -> Rceil (IZR (n * t) / IZR t)%R = n.
Proof.
  intros Ht. apply Rceil_eq. rewrite mult_IZR. unfold is_ceil. apply IZR_le in Ht.
  replace (IZR n * IZR t / IZR t)%R with (IZR n) by (field; lra). lra.
Qed.
Theorem size_cost n t R_F R_P : 1 <= t -> get_size_cost t R_F R_P (n * t) = n * get_sbox_cost t R_F R_P.
Proof. intros Ht. unfold get_size_cost, get_sbox_cost. cbv zeta. rewrite ceil_mul by exact Ht. ring. Qed.

Theorem final_numbers sat n t mar R_F R_P : 1 <= t -> find_FD_round_numbers sat t mar = (R_F, R_P) ->
  poseidon_calc_final_numbers_fixed sat n t mar = [R_F; R_P; t * R_F + R_P; n * (t * R_F + R_P)].
Proof. intros Ht E. unfold poseidon_calc_final_numbers_fixed. cbv zeta. rewrite E, size_cost by exact Ht. reflexivity. Qed.

(** ** The shipped round numbers *)
Definition small (t rf rp : nat) : bool :=
  (1 <=? Z.of_nat t) && (Z.of_nat t * Z.of_nat rf + Z.of_nat rp <=? 100 * Z.of_nat t) && (Z.of_nat t * Z.of_nat rf + Z.of_nat rp <=? 4 * Z.of_nat t + 500).
Lemma p2_small : forallb (fun I => small (qi_t I) (qi_rf I) (qi_rp I)) p2_instances = true.
Proof. lazy. reflexivity. Qed.
Lemma ps_small : forallb (fun I => small (si_t I) (si_rf I) (si_rp I)) ps_instances = true.
Proof. lazy. reflexivity. Qed.

Lemma claim_optimal p t d rf rp : small t rf rp = true -> ProofScript2.rounds_claim p t d rf rp ->
  forall n a b k, ProofScript2.bits n p -> 4 <= a -> Z.even a = true -> 1 <= b ->
  sat_inequiv_alpha p (Z.of_nat n) (Z.of_nat t) a b (Z.of_nat d) 128 -> is_ceil (1075 / 1000 * IZR b)%R k ->
  Z.of_nat t * Z.of_nat rf + Z.of_nat rp <= Z.of_nat t * (a + 2) + k.
Proof.
  intros Hs Hc n a b k Hn Ha He Hb Hsat Hk.
  unfold small in Hs. apply Bool.andb_true_iff in Hs. destruct Hs as [Hs S3]. apply Bool.andb_true_iff in Hs. destruct Hs as [S1 S2].
  apply Z.leb_le in S1, S2, S3.
  assert (Kb : b <= k) by (rewrite (infl_ceil _ _ Hk); apply (infl_ge true); lia).
  destruct (Z_lt_le_dec a 100) as [L|L]; [|nia]. destruct (Z_lt_le_dec b 500) as [L'|L']; [|nia].
  destruct (Hc n Hn) as [[sat D] [F _]]. specialize (F sat D).
  destruct (search_optimal sat (Z.of_nat t) true _ _ S1 F) as [[_ O]|[_ [_ O]]].
  - assert (A : admissible sat a b) by (split; [lia|split; [exact He|split; [lia|apply D; [lia|exact He|lia|exact Hsat]]]]).
    destruct (O a b (a + 2) k A) as [K|[K _]]; [split; [reflexivity|exact Hk]|lia..].
  - exfalso. apply (O a b). split; [lia|split; [exact He|split; [lia|apply D; [lia|exact He|lia|exact Hsat]]]].
Qed.

Theorem p2_optimal I : In I p2_instances -> forall n a b k, ProofScript2.bits n (qi_p I) -> 4 <= a -> Z.even a = true -> 1 <= b ->
  sat_inequiv_alpha (qi_p I) (Z.of_nat n) (Z.of_nat (qi_t I)) a b (Z.of_nat (qi_d I)) 128 -> is_ceil (1075 / 1000 * IZR b)%R k ->
  Z.of_nat (qi_t I) * Z.of_nat (qi_rf I) + Z.of_nat (qi_rp I) <= Z.of_nat (qi_t I) * (a + 2) + k.
Proof.
  intros H. apply claim_optimal; [|apply ProofScript2.p2_round_numbers; exact H].
  exact (proj1 (forallb_forall _ _) p2_small I H).
Qed.
Theorem ps_optimal I : In I ps_instances -> forall n a b k, ProofScript2.bits n (si_p I) -> 4 <= a -> Z.even a = true -> 1 <= b ->
  sat_inequiv_alpha (si_p I) (Z.of_nat n) (Z.of_nat (si_t I)) a b (Z.of_nat (si_d I)) 128 -> is_ceil (1075 / 1000 * IZR b)%R k ->
  Z.of_nat (si_t I) * Z.of_nat (si_rf I) + Z.of_nat (si_rp I) <= Z.of_nat (si_t I) * (a + 2) + k.
Proof.
  intros H. apply claim_optimal; [|apply ProofScript2.ps_round_numbers; exact H].
  exact (proj1 (forallb_forall _ _) ps_small I H).
Qed.
