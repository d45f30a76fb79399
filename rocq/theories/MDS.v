(** * MDS: equivalence of branch number and minors; Cauchy matrices *)
From Coq Require Import Permutation.
From Verif Require Import Base Field Spec LinAlg Poly SpecMDS.

Lemma filter_map_length {A B} (g : A -> B) f l :
  length (filter f (map g l)) = length (filter (fun a => f (g a)) l).
Proof. induction l as [|a l IH]; [reflexivity|]. simpl. destruct (f (g a)); simpl; rewrite IH; reflexivity. Qed.
Lemma filter_split {A} (f : A -> bool) l :
  length (filter f l) + length (filter (fun a => negb (f a)) l) = length l.
Proof. induction l as [|a l IH]; simpl; [lia|]. destruct (f a); simpl; lia. Qed.

Lemma NoDup_app2 {A} (l l' : list A) : NoDup l -> NoDup l' -> (forall a, In a l -> ~ In a l') -> NoDup (l ++ l').
Proof.
  induction l as [|a l IH]; intros H H' D; [exact H'|]. inversion H; subst. simpl. constructor.
  - rewrite in_app_iff. intros [I|I]; [contradiction|]. apply (D a); [left; reflexivity|exact I].
  - apply IH; auto. intros x Hx. apply D. right; exact Hx.
Qed.
Lemma NoDup_app_l {A} (l l' : list A) : NoDup (l ++ l') -> NoDup l.
Proof.
  induction l as [|a l IH]; intros H; [constructor|]. inversion H; subst. constructor; [|auto].
  intros I. apply H2, in_or_app. left; exact I.
Qed.
Lemma NoDup_map_inj {A B} (f : A -> B) l : (forall x y, In x l -> In y l -> f x = f y -> x = y) ->
  NoDup l -> NoDup (map f l).
Proof.
  induction l as [|a l IH]; intros Hf H; [constructor|]. inversion H; subst. simpl. constructor.
  - rewrite in_map_iff. intros [x [E I]]. apply H2. rewrite (Hf a x); [exact I|left; reflexivity|right; exact I|auto].
  - apply IH; [|assumption]. intros x y Hx Hy. apply Hf; right; assumption.
Qed.

Section MDS.
  Context {F : Type} {Fo : FOps F} (HF : is_field Fo).
  Add Ring FringMDS : (ff_ring _ HF).

  Definition nz (x : list F) (i : nat) : bool := negb (feqb (nth i x f0) f0).

  Lemma weight_seq x : weight x = length (filter (nz x) (seq 0 (length x))).
  Proof.
    unfold weight. rewrite (list_as_map f0 x) at 1. rewrite filter_map_length. reflexivity.
  Qed.

  Lemma nz_true x i : nz x i = true <-> nth i x f0 <> f0.
  Proof.
    unfold nz. rewrite negb_true_iff. split.
    - intros E C. rewrite C, (feqb_refl HF) in E. discriminate.
    - intros N. apply (feqb_neq HF). exact N.
  Qed.
  Lemma nz_false x i : nz x i = false <-> nth i x f0 = f0.
  Proof.
    destruct (nz x i) eqn:E.
    - apply nz_true in E. split; [discriminate|contradiction].
    - split; [|reflexivity]. intros _. destruct (feq_dec HF (nth i x f0) f0) as [D|D]; [exact D|].
      apply nz_true in D. congruence.
  Qed.

  (** ** Sums over index lists *)
  Definition lsum (f : nat -> F) (l : list nat) : F := fold_right fadd f0 (map f l).

  Lemma lsum_seq n f : lsum f (seq 0 n) = sumn n f.
  Proof.
    induction n as [|n IH]; [reflexivity|]. rewrite seq_S. unfold lsum in *.
    rewrite map_app, fold_right_app. cbn [map fold_right plus].
    assert (G : forall l a, fold_right fadd a l = fadd (fold_right fadd f0 l) a).
    { induction l as [|b l IHl]; intros a; cbn [fold_right]; [ring|]. rewrite IHl. ring. }
    rewrite G, IH. cbn [sumn]. ring.
  Qed.
  Lemma lsum_perm f l l' : Permutation l l' -> lsum f l = lsum f l'.
  Proof.
    unfold lsum. induction 1; cbn [map fold_right].
    - reflexivity.
    - rewrite IHPermutation. reflexivity.
    - ring.
    - congruence.
  Qed.
  Lemma lsum_app f l l' : lsum f (l ++ l') = fadd (lsum f l) (lsum f l').
  Proof.
    unfold lsum. induction l as [|a l IH]; cbn [app map fold_right]; [ring|]. rewrite IH. ring.
  Qed.
  Lemma lsum_zero f l : (forall i, In i l -> f i = f0) -> lsum f l = f0.
  Proof.
    intros H. unfold lsum. induction l as [|a l IH]; [reflexivity|]. cbn [map fold_right].
    rewrite IH by (intros; apply H; right; assumption). rewrite (H a) by (left; reflexivity). ring.
  Qed.
  Lemma lsum_nth f l : lsum f l = sumn (length l) (fun j => f (nth j l 0)).
  Proof.
    unfold lsum. induction l as [|a l IH]; [reflexivity|]. cbn [map fold_right length].
    rewrite (sumn_first HF). cbn [nth]. rewrite IH. reflexivity.
  Qed.

  Lemma sumn_support n (f : nat -> F) cols : NoDup cols -> (forall c, In c cols -> c < n) ->
    (forall i, i < n -> ~ In i cols -> f i = f0) ->
    sumn n f = sumn (length cols) (fun j => f (nth j cols 0)).
  Proof.
    intros Hnd Hr Hz.
    set (rest := filter (fun i => if in_dec Nat.eq_dec i cols then false else true) (seq 0 n)).
    assert (HR : forall i, In i rest <-> i < n /\ ~ In i cols).
    { intros i. unfold rest. rewrite filter_In, in_seq. destruct (in_dec Nat.eq_dec i cols); intuition (try lia; try discriminate). }
    rewrite <- lsum_seq, <- lsum_nth.
    rewrite (lsum_perm f (seq 0 n) (cols ++ rest)).
    - rewrite lsum_app. rewrite (lsum_zero f rest); [ring|]. intros i Hi. apply HR in Hi. apply Hz; tauto.
    - apply NoDup_Permutation; [apply seq_NoDup| |].
      + apply NoDup_app2; [exact Hnd|apply NoDup_filter, seq_NoDup|].
        intros i Hi Hi'. apply HR in Hi'. tauto.
      + intros i. rewrite in_app_iff, HR, in_seq. split.
        * intros Hi. destruct (in_dec Nat.eq_dec i cols); [left; assumption|right; split; [lia|assumption]].
        * intros [Hi|Hi]; [pose proof (Hr i Hi); lia|lia].
  Qed.

  (** ** Minors and branch number *)
  Theorem minors_mds n A : minors_nonsingular n A -> is_mds n A.
  Proof.
    intros HM x Hlx Hnz. set (y := mat_apply n n A x).
    assert (Hly : length y = n) by apply mat_apply_length.
    set (cols := filter (nz x) (seq 0 n)).
    set (zs := filter (fun i => negb (nz y i)) (seq 0 n)).
    assert (Wx : weight x = length cols) by (rewrite weight_seq, Hlx; reflexivity).
    assert (Wy : weight y + length zs = n).
    { rewrite weight_seq, Hly. unfold zs. rewrite filter_split, seq_length. reflexivity. }
    destruct (le_lt_dec (n + 1) (weight x + weight y)) as [L|L]; [exact L|exfalso].
    assert (Hz : length cols <= length zs) by lia.
    set (rows := firstn (length cols) zs).
    assert (Hlr : length rows = length cols) by (unfold rows; rewrite firstn_length; lia).
    assert (Hin : forall r, In r rows -> r < n /\ nth r y f0 = f0).
    { intros r Hr. assert (Hr' : In r zs).
      { unfold rows in Hr. rewrite <- (firstn_skipn (length cols) zs). apply in_or_app; left; exact Hr. }
      apply filter_In in Hr'. destruct Hr' as [Hr1 Hr2]. apply in_seq in Hr1.
      split; [lia|]. apply nz_false. destruct (nz y r); [discriminate|reflexivity]. }
    assert (Hci : forall c, In c cols <-> c < n /\ nth c x f0 <> f0).
    { intros c. unfold cols. rewrite filter_In, in_seq, nz_true. intuition lia. }
    assert (Hcn : NoDup cols) by apply NoDup_filter, seq_NoDup.
    assert (Hrn : NoDup rows).
    { unfold rows. assert (NoDup zs) as Hzs by apply NoDup_filter, seq_NoDup.
      rewrite <- (firstn_skipn (length cols) zs) in Hzs. apply NoDup_app_l in Hzs. exact Hzs. }
    assert (Hpos : 0 < length cols).
    { destruct cols as [|c cs] eqn:E; [|simpl; lia]. exfalso. apply Hnz.
      apply (list_ext f0); [rewrite repeat_length; exact Hlx|]. intros i Hi.
      rewrite nth_repeat_same. destruct (feq_dec HF (nth i x f0) f0) as [D|D]; [exact D|].
      assert (In i []) as [] by (apply Hci; split; [lia|exact D]). }
    assert (HN := HM rows cols Hrn Hcn Hlr (fun r Hr => proj1 (Hin r Hr)) (fun c Hc => proj1 (proj1 (Hci c) Hc))).
    rewrite Hlr in HN.
    specialize (HN (fun j => nth (nth j cols 0) x f0)).
    assert (HZ : nth (nth 0 cols 0) x f0 = f0).
    { apply HN; [|exact Hpos]. intros i Hi.
      assert (Hri : In (nth i rows 0) rows) by (apply nth_In; lia).
      destruct (Hin _ Hri) as [Hr1 Hr2]. unfold y in Hr2. rewrite mat_apply_nth in Hr2 by exact Hr1.
      rewrite (sumn_support n _ cols Hcn) in Hr2.
      - exact Hr2.
      - intros c Hc. apply Hci; exact Hc.
      - intros j Hj Hnj. assert (E : nth j x f0 = f0).
        { destruct (feq_dec HF (nth j x f0) f0) as [D|D]; [exact D|]. exfalso. apply Hnj, Hci. split; assumption. }
        rewrite E. ring. }
    assert (HI : In (nth 0 cols 0) cols) by (apply nth_In; exact Hpos).
    apply Hci in HI. tauto.
  Qed.

  Theorem mds_minors n A : is_mds n A -> minors_nonsingular n A.
  Proof.
    intros HM rows cols Hrn Hcn Hlr Hr Hc v Hv j Hj.
    destruct (feq_dec HF (v j) f0) as [D|D]; [exact D|exfalso].
    set (k := length rows) in *.
    set (xi := fun i => sumn k (fun l => if nth l cols 0 =? i then v l else f0)).
    set (x := map xi (seq 0 n)).
    assert (Hlx : length x = n) by (unfold x; rewrite map_length, seq_length; reflexivity).
    assert (Hx : forall i, i < n -> nth i x f0 = xi i) by (intros; apply nth_map_seq; assumption).
    assert (Hxc : forall l, l < k -> xi (nth l cols 0) = v l).
    { intros l Hl. unfold xi. rewrite (sumn_single HF k l).
      - rewrite Nat.eqb_refl. reflexivity.
      - exact Hl.
      - intros i Hi Hne. destruct (Nat.eqb_spec (nth i cols 0) (nth l cols 0)) as [E|E]; [|reflexivity].
        exfalso. apply Hne. apply (proj1 (NoDup_nth cols 0) Hcn); [lia|lia|exact E]. }
    assert (Hxo : forall i, ~ In i cols -> xi i = f0).
    { intros i Hi. unfold xi. apply (sumn_zero HF). intros l Hl.
      destruct (Nat.eqb_spec (nth l cols 0) i) as [E|E]; [|reflexivity].
      exfalso. apply Hi. rewrite <- E. apply nth_In. lia. }
    assert (Hcj : nth j cols 0 < n) by (apply Hc, nth_In; lia).
    assert (Hnz : x <> repeat f0 n).
    { intros E. apply D. rewrite <- (Hxc j Hj), <- Hx by exact Hcj. rewrite E. apply nth_repeat_same. }
    specialize (HM x Hlx Hnz). set (y := mat_apply n n A x) in *.
    assert (Hly : length y = n) by apply mat_apply_length.
    assert (Hy : forall i, i < k -> nth (nth i rows 0) y f0 = f0).
    { intros i Hi. unfold y. assert (nth i rows 0 < n) by (apply Hr, nth_In; exact Hi).
      rewrite mat_apply_nth by assumption.
      rewrite (sumn_support n _ cols Hcn Hc).
      - etransitivity; [|exact (Hv i Hi)]. rewrite <- Hlr. apply (sumn_ext). intros l Hl.
        cbv beta. rewrite Hx by (apply Hc, nth_In; lia). rewrite Hxc by exact Hl. reflexivity.
      - intros l Hl Hnl. rewrite Hx by exact Hl. rewrite Hxo by exact Hnl. ring. }
    assert (Wx : weight x <= k).
    { rewrite weight_seq, Hlx. rewrite Hlr. apply NoDup_incl_length; [apply NoDup_filter, seq_NoDup|].
      intros i Hi. apply filter_In in Hi. destruct Hi as [Hi1 Hi2]. apply in_seq in Hi1. apply nz_true in Hi2.
      destruct (in_dec Nat.eq_dec i cols) as [I|I]; [exact I|]. exfalso. apply Hi2. rewrite Hx by lia. apply Hxo. exact I. }
    assert (Wy : k + weight y <= n).
    { rewrite weight_seq, Hly. unfold k. rewrite <- app_length. rewrite <- (seq_length n 0) at 2.
      apply NoDup_incl_length.
      - apply NoDup_app2; [exact Hrn|apply NoDup_filter, seq_NoDup|].
        intros i Hi Hi'. apply filter_In in Hi'. destruct Hi' as [_ Hi']. apply nz_true in Hi'.
        apply (In_nth _ _ 0) in Hi. destruct Hi as [l [Hl El]]. apply Hi'. rewrite <- El. apply Hy. exact Hl.
      - intros i Hi. apply in_app_iff in Hi. apply in_seq. destruct Hi as [Hi|Hi].
        + specialize (Hr i Hi). lia.
        + apply filter_In in Hi. destruct Hi as [Hi _]. apply in_seq in Hi. lia. }
    lia.
  Qed.

  Theorem mds_iff_minors n A : is_mds n A <-> minors_nonsingular n A.
  Proof. split; [apply mds_minors|apply minors_mds]. Qed.

  (** ** Cauchy matrices *)
  Section Cauchy.
    Context (b : nat -> F).
    Fixpoint prod_but (k j : nat) (X : F) : F :=
      match k with
      | O => f1
      | S l => if l =? j then prod_but l j X else fmul (fadd X (b l)) (prod_but l j X)
      end.
    Lemma prod_but_poly k j : is_poly (if j <? k then k else S k) (prod_but k j).
    Proof.
      induction k as [|k IH]; cbn [prod_but].
      - destruct (Nat.ltb_spec j 0); [lia|]. apply (is_poly_const HF).
      - destruct (Nat.ltb_spec j k) as [L|L].
        + destruct (Nat.ltb_spec j (S k)); [|lia]. destruct (Nat.eqb_spec k j); [lia|].
          apply (is_poly_lin HF). exact IH.
        + destruct (Nat.eqb_spec k j) as [E|E].
          * destruct (Nat.ltb_spec j (S k)); [|lia]. exact IH.
          * destruct (Nat.ltb_spec j (S k)); [lia|]. apply (is_poly_lin HF). exact IH.
    Qed.
    Fixpoint prod_all (k : nat) (X : F) : F :=
      match k with O => f1 | S l => fmul (fadd X (b l)) (prod_all l X) end.
    Lemma prod_but_ge k j X : k <= j -> prod_but k j X = prod_all k X.
    Proof.
      induction k as [|k IH]; intros H; cbn [prod_but prod_all]; [reflexivity|].
      destruct (Nat.eqb_spec k j); [lia|]. rewrite IH by lia. reflexivity.
    Qed.
    Lemma prod_but_all k j X : j < k -> fmul (fadd X (b j)) (prod_but k j X) = prod_all k X.
    Proof.
      induction k as [|k IH]; intros H; [lia|]. cbn [prod_but prod_all].
      destruct (Nat.eqb_spec k j) as [E|E].
      - subst. rewrite prod_but_ge by lia. reflexivity.
      - rewrite <- IH by lia. ring.
    Qed.
    Lemma prod_but_neq k j X : (forall l, l < k -> l <> j -> fadd X (b l) <> f0) -> prod_but k j X <> f0.
    Proof.
      induction k as [|k IH]; intros H; cbn [prod_but]; [apply (ff_one_neq_zero _ HF)|].
      destruct (Nat.eqb_spec k j) as [E|E]; [apply IH; intros; apply H; lia|].
      apply (fmul_neq_0 HF); [apply H; lia|apply IH; intros; apply H; lia].
    Qed.
    Lemma prod_but_root k j l X : l < k -> l <> j -> fadd X (b l) = f0 -> prod_but k j X = f0.
    Proof.
      induction k as [|k IH]; intros H1 H2 H3; [lia|]. cbn [prod_but].
      destruct (Nat.eqb_spec k j) as [E|E]; [apply IH; lia || assumption|].
      destruct (Nat.eq_dec l k) as [->|N]; [rewrite H3; ring|].
      rewrite IH by (assumption || lia). ring.
    Qed.

    Theorem cauchy_nonsingular k (a : nat -> F) :
      (forall i j, i < k -> j < k -> a i = a j -> i = j) ->
      (forall i j, i < k -> j < k -> b i = b j -> i = j) ->
      (forall i j, i < k -> j < k -> fadd (a i) (b j) <> f0) ->
      nonsingular k (fun i j => finv (fadd (a i) (b j))).
    Proof.
      intros Ha Hb Hab c Hc j Hj.
      set (P := fun X => sumn k (fun j => fmul (c j) (prod_but k j X))).
      assert (HP : is_poly k P).
      { apply (is_poly_sumn HF k k (fun j X => fmul (c j) (prod_but k j X))). intros i Hi.
        apply (is_poly_scale HF). pose proof (prod_but_poly k i) as Q.
        destruct (Nat.ltb_spec i k); [exact Q|lia]. }
      assert (Hroot : forall i, i < k -> P (a i) = f0).
      { intros i Hi. unfold P.
        assert (E : fmul (prod_all k (a i)) (sumn k (fun j => fmul (finv (fadd (a i) (b j))) (c j))) = f0).
        { rewrite Hc by exact Hi. ring. }
        rewrite <- (sumn_mul_l HF) in E. etransitivity; [|exact E].
        apply sumn_ext. intros l Hl. rewrite <- (prod_but_all k l) by exact Hl.
        assert (I := finv_r HF (fadd (a i) (b l)) (Hab i l Hi Hl)).
        set (u := fadd (a i) (b l)) in *. set (w := finv u) in *. set (q := prod_but k l (a i)).
        transitivity (fmul (fmul u w) (fmul (c l) q)); [rewrite I; ring|ring]. }
      assert (HZ : forall X, P X = f0).
      { apply (poly_roots HF k P (map a (seq 0 k)) HP).
        - apply NoDup_map_inj; [|apply seq_NoDup]. intros u w Hu Hw. apply in_seq in Hu, Hw. apply Ha; lia.
        - rewrite map_length, seq_length. lia.
        - intros r Hr. apply in_map_iff in Hr. destruct Hr as [i [<- Hi]]. apply in_seq in Hi. apply Hroot. lia. }
      specialize (HZ (fopp (b j))). unfold P in HZ.
      rewrite (sumn_single HF k j) in HZ; [|exact Hj|].
      - destruct (fmul_integral HF _ _ HZ) as [E|E]; [exact E|exfalso].
        revert E. apply prod_but_neq. intros l Hl Hne E. apply Hne. apply Hb; [exact Hl|exact Hj|].
        transitivity (fadd (b j) (fadd (fopp (b j)) (b l))); [unfold fopp; ring|rewrite E; ring].
      - intros i Hi Hne. rewrite (prod_but_root k i j); [ring|exact Hj|auto|]. unfold fopp. ring.
    Qed.
  End Cauchy.

  Theorem cauchy_minors n (a b : nat -> F) :
    (forall i j, i < n -> j < n -> a i = a j -> i = j) ->
    (forall i j, i < n -> j < n -> b i = b j -> i = j) ->
    (forall i j, i < n -> j < n -> fadd (a i) (b j) <> f0) ->
    minors_nonsingular n (fun i j => finv (fadd (a i) (b j))).
  Proof.
    intros Ha Hb Hab rows cols Hrn Hcn Hlr Hr Hc.
    assert (R : forall i, i < length rows -> nth i rows 0 < n) by (intros; apply Hr, nth_In; assumption).
    assert (C : forall i, i < length rows -> nth i cols 0 < n) by (intros; apply Hc, nth_In; lia).
    apply (cauchy_nonsingular (fun j => b (nth j cols 0)) _ (fun i => a (nth i rows 0))).
    - intros i j Hi Hj E. apply (proj1 (NoDup_nth rows 0) Hrn); [exact Hi|exact Hj|]. apply Ha; auto.
    - intros i j Hi Hj E. apply (proj1 (NoDup_nth cols 0) Hcn); [lia|lia|]. apply Hb; auto.
    - intros i j Hi Hj. apply Hab; auto.
  Qed.
End MDS.
