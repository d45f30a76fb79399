(** * TopCoef: the coefficient of x^D under the field operations; it decides the degree when D is below the number of elements *)
From Verif Require Import Base Field Spec SpecPoly SpecTop LinAlg PolyFun.
Local Open Scope nat_scope.

Section TopCoef.
  Context {F : Type} {Fo : FOps F} (HF : is_field Fo).
  Add Ring FringTC : (ff_ring _ HF).

  Lemma top_hev D l f : poly_top D l f <-> exists c, length c <= S D /\ nth D c f0 = l /\ forall x, f x = hev c x.
  Proof. split; intros [c [Lc [Nc Hc]]]; exists c; (split; [exact Lc|]); (split; [exact Nc|]); intros x; rewrite Hc; [|symmetry]; apply (poly_at_hev HF). Qed.
  Lemma top_ext D l f g : (forall x, f x = g x) -> poly_top D l f -> poly_top D l g.
  Proof. intros E [c [Lc [Nc Hc]]]. exists c. split; [exact Lc|]. split; [exact Nc|]. intros x. rewrite <- E. apply Hc. Qed.
  Lemma top_eq D E l m f : D = E -> l = m -> poly_top D l f -> poly_top E m f.
  Proof. intros -> ->. exact (fun H => H). Qed.
  Lemma top_le D l f : poly_top D l f -> poly_le D f.
  Proof. intros [c [Lc [_ Hc]]]. exists c. split; assumption. Qed.
  Lemma top_low D E f : D < E -> poly_le D f -> poly_top E f0 f.
  Proof. intros L [c [Lc Hc]]. exists c. split; [lia|]. split; [apply nth_overflow; lia|exact Hc]. Qed.
  Lemma nth_skip D : forall (c : list F) i d, nth i (skipn D c) d = nth (D + i) c d.
  Proof. induction D as [|D IH]; intros [|a c] i d; cbn [skipn nth Nat.add]; [reflexivity|reflexivity|destruct i; reflexivity|apply IH]. Qed.
  Lemma top_zero D f : 1 <= D -> poly_top D f0 f -> poly_le (D - 1) f.
  Proof.
    intros HD [c [Lc [Nc Hc]]]. exists (firstn D c). split; [rewrite firstn_length; lia|]. intros x. rewrite Hc.
    rewrite !(poly_at_hev HF). clear Hc f. rewrite <- (firstn_skipn D c) at 1.
    assert (S : Forall (fun y => y = f0) (skipn D c)).
    { apply Forall_nth. intros i d Hi. rewrite skipn_length in Hi. rewrite (nth_indep _ d f0) by (rewrite skipn_length; lia).
      rewrite nth_skip. replace (D + i) with D by lia. exact Nc. }
    generalize (firstn D c). intros u. induction u as [|a u IH]; cbn [app hev].
    - induction S as [|y l -> S IH]; cbn [hev]; [reflexivity|]. rewrite IH. ring.
    - rewrite IH. reflexivity.
  Qed.
  Lemma nth_padd a : forall b k, nth k (padd a b) f0 = fadd (nth k a f0) (nth k b f0).
  Proof. induction a as [|x a IH]; intros [|y b] [|k]; cbn [padd nth]; try ring. apply IH. Qed.
  Lemma nth_pscale u c : forall k, nth k (map (fmul u) c) f0 = fmul u (nth k c f0).
  Proof. induction c as [|a c IH]; intros [|k]; cbn [map nth]; try ring. apply IH. Qed.

  Lemma top_add D l m f g : poly_top D l f -> poly_top D m g -> poly_top D (fadd l m) (fun x => fadd (f x) (g x)).
  Proof.
    rewrite !top_hev. intros [a [La [Na Ha]]] [b [Lb [Nb Hb]]]. exists (padd a b). split; [rewrite padd_length; lia|].
    split; [rewrite nth_padd, Na, Nb; reflexivity|]. intros x. rewrite Ha, Hb. symmetry. apply (hev_add HF).
  Qed.
  Lemma top_scale D u l f : poly_top D l f -> poly_top D (fmul u l) (fun x => fmul u (f x)).
  Proof.
    rewrite !top_hev. intros [c [Lc [Nc Hc]]]. exists (map (fmul u) c). split; [rewrite map_length; exact Lc|]. split; [rewrite nth_pscale, Nc; reflexivity|].
    intros x. rewrite Hc. symmetry. apply (hev_scale HF).
  Qed.
  Lemma top_sub D l m f g : poly_top D l f -> poly_top D m g -> poly_top D (fsub l m) (fun x => fsub (f x) (g x)).
  Proof.
    intros Hf Hg. apply (top_ext D _ (fun x => fadd (f x) (fmul (fopp f1) (g x)))); [intros x; ring|].
    apply (top_eq D D (fadd l (fmul (fopp f1) m))); [reflexivity|ring|]. apply top_add; [exact Hf|]. apply top_scale, Hg.
  Qed.
  Lemma top_const D a : 1 <= D -> poly_top D f0 (fun _ => a).
  Proof. intros H. apply (top_low 0); [lia|apply (poly_const HF)]. Qed.
  Lemma pmul_top a : forall b D E, length a <= S D -> length b <= S E -> nth (D + E) (pmul a b) f0 = fmul (nth D a f0) (nth E b f0).
  Proof.
    induction a as [|x a IH]; intros b D E La Lb; cbn [pmul].
    - rewrite !nth_overflow by (cbn [length]; lia). ring.
    - cbn [length] in La. rewrite nth_padd, nth_pscale. destruct D as [|D].
      + destruct a; [|cbn [length] in La; lia]. cbn [pmul nth Nat.add]. destruct E as [|E]; cbn [nth]; [ring|]. destruct E; ring.
      + rewrite (nth_overflow b) by lia. cbn [Nat.add nth]. rewrite IH by lia. ring.
  Qed.
  Lemma top_mul D E l m f g : poly_top D l f -> poly_top E m g -> poly_top (D + E) (fmul l m) (fun x => fmul (f x) (g x)).
  Proof.
    rewrite !top_hev. intros [a [La [Na Ha]]] [b [Lb [Nb Hb]]]. exists (pmul a b). split; [pose proof (pmul_length a b); lia|].
    split; [rewrite pmul_top, Na, Nb by assumption; reflexivity|]. intros x. rewrite Ha, Hb. symmetry. apply (hev_mul HF).
  Qed.
  Lemma top_pow D l f n : poly_top D l f -> poly_top (D * n) (fpow l n) (fun x => fpow (f x) n).
  Proof.
    intros Hf. induction n as [|n IH]; cbn [fpow].
    - rewrite Nat.mul_0_r. apply top_hev. exists [f1]. split; [cbn; lia|]. split; [reflexivity|]. intros x. cbn [hev]. ring.
    - apply (top_eq (D + D * n) _ (fmul l (fpow l n))); [lia|reflexivity|]. apply top_mul; assumption.
  Qed.
  Lemma top_sumn D n (l : nat -> F) (f : nat -> F -> F) : 1 <= D -> (forall k, k < n -> poly_top D (l k) (f k)) -> poly_top D (sumn n l) (fun x => sumn n (fun k => f k x)).
  Proof.
    intros HD. induction n as [|n IH]; intros H; cbn [sumn]; [apply top_const, HD|]. apply top_add; [apply IH; intros k Hk; apply H; lia|apply H; lia].
  Qed.

  (** ** A polynomial with more roots than its degree has no coefficient *)
  Lemma hev_div_top c r : exists q, length q = length c - 1 /\ (forall D, length c <= S (S D) -> nth D q f0 = nth (S D) c f0) /\
    forall x, hev c x = fadd (fmul (fsub x r) (hev q x)) (hev c r).
  Proof.
    induction c as [|a c [q [Lq [Nq Hq]]]]; [exists []; split; [reflexivity|split; [intros [|D] _; reflexivity|intros x; cbn [hev]; ring]]|].
    exists (padd c (map (fmul r) q)). split; [rewrite padd_length, map_length; cbn [length]; lia|]. split.
    - intros D HD. cbn [length] in HD. rewrite nth_padd, nth_pscale, (nth_overflow q) by lia. cbn [nth]. ring.
    - intros x. cbn [hev]. rewrite (hev_add HF), (hev_scale HF). rewrite (Hq x) at 1 2. ring_simplify. ring.
  Qed.
  Lemma top_roots D : forall c L, length c <= S D -> NoDup L -> D < length L -> (forall x, In x L -> hev c x = f0) -> nth D c f0 = f0.
  Proof.
    induction D as [|D IH]; intros c L Lc ND HL Z.
    - destruct L as [|r L]; [cbn in HL; lia|]. pose proof (Z r (or_introl eq_refl)) as Zr. destruct c as [|a [|b c]]; [reflexivity| |cbn in Lc; lia].
      cbn [hev] in Zr. cbn [nth]. rewrite <- Zr. ring.
    - destruct L as [|r L]; [cbn in HL; lia|]. destruct (hev_div_top c r) as [q [Lq [Nq Hq]]]. rewrite <- (Nq D) by lia.
      cbn [length] in HL. inversion ND as [|r' L' Nr ND']; subst r' L'.
      apply (IH q L); [lia|exact ND'|lia|].
      intros y Hy. pose proof (Z y (or_intror Hy)) as Zy. rewrite (Hq y), (Z r) in Zy by (left; reflexivity).
      assert (N : fsub y r <> f0) by (intros E; apply (fsub_eq_0 HF) in E; apply Nr; rewrite <- E; exact Hy).
      transitivity (fmul (fmul (finv (fsub y r)) (fsub y r)) (hev q y)); [rewrite (ff_inv _ HF _ N); ring|].
      transitivity (fmul (finv (fsub y r)) (fadd (fmul (fsub y r) (hev q y)) f0)); [ring|]. rewrite Zy. ring.
  Qed.
  Theorem top_unique D l m f (L : list F) : NoDup L -> D < length L -> poly_top D l f -> poly_top D m f -> l = m.
  Proof.
    intros ND HL Hl Hm. apply (fsub_eq_0 HF). pose proof (top_sub D l m f f Hl Hm) as P. apply top_hev in P. destruct P as [c [Lc [Nc Hc]]].
    rewrite <- Nc. apply (top_roots D c L Lc ND HL). intros x _. rewrite <- Hc. ring.
  Qed.
  Theorem top_exact D l f (L : list F) : 1 <= D -> NoDup L -> D < length L -> poly_top D l f -> poly_le D f /\ (exact_degree D f <-> l <> f0).
  Proof.
    intros HD ND HL H. split; [exact (top_le D l f H)|]. split.
    - intros [_ N] ->. apply (N (D - 1)); [lia|]. apply top_zero; assumption.
    - intros Nl. split; [exact (top_le D l f H)|]. intros E HE P. apply Nl. apply (top_unique D l f0 f L ND HL H). apply (top_low E); assumption.
  Qed.
End TopCoef.
