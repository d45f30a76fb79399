(** * PolyFun: polynomial functions are closed under the field operations; roots; sums over a finite field *)
From Coq Require Import Permutation.
From Verif Require Import Base Field Spec SpecPoly LinAlg FieldPow.
Local Open Scope nat_scope.

Section PolyFun.
  Context {F : Type} {Fo : FOps F} (HF : is_field Fo).
  Add Ring FringPF : (ff_ring _ HF).

  (** Horner form *)
  Fixpoint hev (c : list F) (x : F) : F := match c with [] => f0 | a :: c => fadd a (fmul x (hev c x)) end.
  Lemma poly_at_hev c x : poly_at c x = hev c x.
  Proof.
    unfold poly_at. induction c as [|a c IH]; [reflexivity|]. cbn [length hev]. rewrite (sumn_first HF), <- IH. cbn [nth fpow]. rewrite <- (sumn_mul_l HF).
    f_equal; [ring|]. apply sumn_ext. intros k _. cbn [nth fpow]. ring.
  Qed.
  Lemma poly_hev D f : poly_le D f <-> exists c, length c <= S D /\ forall x, f x = hev c x.
  Proof. split; intros [c [Lc Hc]]; exists c; (split; [exact Lc|]); intros x; rewrite Hc; [|symmetry]; apply poly_at_hev. Qed.

  Fixpoint padd (a b : list F) : list F :=
    match a, b with [], _ => b | _, [] => a | x :: a, y :: b => fadd x y :: padd a b end.
  Lemma padd_length a : forall b, length (padd a b) = Nat.max (length a) (length b).
  Proof. induction a as [|x a IH]; intros [|y b]; cbn [padd length]; try lia. rewrite IH. lia. Qed.
  Lemma hev_add a : forall b x, hev (padd a b) x = fadd (hev a x) (hev b x).
  Proof. induction a as [|u a IH]; intros [|v b] x; cbn [padd hev]; [ring|ring|ring|]. rewrite IH. ring. Qed.
  Lemma hev_scale a c x : hev (map (fmul a) c) x = fmul a (hev c x).
  Proof. induction c as [|u c IH]; cbn [map hev]; [ring|]. rewrite IH. ring. Qed.
  Fixpoint pmul (a b : list F) : list F := match a with [] => [] | x :: a => padd (map (fmul x) b) (f0 :: pmul a b) end.
  Lemma pmul_length a b : length (pmul a b) <= length a + (length b - 1).
  Proof. induction a as [|x a IH]; cbn [pmul length]; [lia|]. rewrite padd_length, map_length. cbn [length]. lia. Qed.
  Lemma hev_mul a b x : hev (pmul a b) x = fmul (hev a x) (hev b x).
  Proof. induction a as [|u a IH]; cbn [pmul hev]; [ring|]. rewrite hev_add, hev_scale. cbn [hev]. rewrite IH. ring. Qed.

  (** ** Closure *)
  Lemma poly_ext D f g : (forall x, f x = g x) -> poly_le D f -> poly_le D g.
  Proof. intros E [c [Lc Hc]]. exists c. split; [exact Lc|]. intros x. rewrite <- E. apply Hc. Qed.
  Lemma poly_weaken D E f : D <= E -> poly_le D f -> poly_le E f.
  Proof. intros L [c [Lc Hc]]. exists c. split; [lia|exact Hc]. Qed.
  Lemma poly_const D a : poly_le D (fun _ => a).
  Proof. apply poly_hev. exists [a]. split; [cbn; lia|]. intros x. cbn [hev]. ring. Qed.
  Lemma poly_id D : 1 <= D -> poly_le D (fun x => x).
  Proof. intros H. apply poly_hev. exists [f0; f1]. split; [cbn; lia|]. intros x. cbn [hev]. ring. Qed.
  Lemma poly_add D f g : poly_le D f -> poly_le D g -> poly_le D (fun x => fadd (f x) (g x)).
  Proof.
    rewrite !poly_hev. intros [a [La Ha]] [b [Lb Hb]]. exists (padd a b). split; [rewrite padd_length; lia|]. intros x. rewrite Ha, Hb. symmetry. apply hev_add.
  Qed.
  Lemma poly_scale D a f : poly_le D f -> poly_le D (fun x => fmul a (f x)).
  Proof. rewrite !poly_hev. intros [c [Lc Hc]]. exists (map (fmul a) c). split; [rewrite map_length; exact Lc|]. intros x. rewrite Hc. symmetry. apply hev_scale. Qed.
  Lemma poly_sub D f g : poly_le D f -> poly_le D g -> poly_le D (fun x => fsub (f x) (g x)).
  Proof. intros Hf Hg. apply (poly_ext D (fun x => fadd (f x) (fmul (fopp f1) (g x)))); [intros x; ring|]. apply poly_add; [exact Hf|]. apply poly_scale, Hg. Qed.
  Lemma poly_mul D E f g : poly_le D f -> poly_le E g -> poly_le (D + E) (fun x => fmul (f x) (g x)).
  Proof.
    rewrite !poly_hev. intros [a [La Ha]] [b [Lb Hb]]. exists (pmul a b). split; [pose proof (pmul_length a b); lia|].
    intros x. rewrite Ha, Hb. symmetry. apply hev_mul.
  Qed.
  Lemma poly_pow D f n : poly_le D f -> poly_le (D * n) (fun x => fpow (f x) n).
  Proof.
    intros Hf. induction n as [|n IH]; cbn [fpow]; [apply poly_const|].
    apply (poly_weaken (D + D * n)); [lia|]. apply poly_mul; assumption.
  Qed.
  Lemma poly_sumn D n (f : nat -> F -> F) : (forall k, k < n -> poly_le D (f k)) -> poly_le D (fun x => sumn n (fun k => f k x)).
  Proof.
    induction n as [|n IH]; intros H; cbn [sumn]; [apply poly_const|]. apply poly_add; [apply IH; intros k Hk; apply H; lia|apply H; lia].
  Qed.

  (** ** Roots *)
  Lemma hev_div c r : exists q, length q = length c - 1 /\ forall x, hev c x = fadd (fmul (fsub x r) (hev q x)) (hev c r).
  Proof.
    induction c as [|a c [q [Lq Hq]]]; [exists []; split; [reflexivity|intros x; cbn [hev]; ring]|].
    exists (padd c (map (fmul r) q)). split; [rewrite padd_length, map_length; cbn [length]; lia|]. intros x. cbn [hev].
    rewrite hev_add, hev_scale. rewrite (Hq x) at 1 2. ring_simplify. ring.
  Qed.
  Lemma hev_roots n : forall c L, length c <= n -> NoDup L -> length c <= length L -> (forall x, In x L -> hev c x = f0) -> forall x, hev c x = f0.
  Proof.
    induction n as [|n IH]; intros c L Hn ND HL Z x.
    - destruct c; [reflexivity|cbn in Hn; lia].
    - destruct c as [|a c]; [reflexivity|]. destruct L as [|r L]; [cbn in HL; lia|].
      destruct (hev_div (a :: c) r) as [q [Lq Hq]]. rewrite (Hq x), (Z r) by (left; reflexivity).
      cbn [length] in Lq, Hn, HL. inversion ND as [|r' L' Nr ND']; subst r' L'.
      rewrite (IH q L); [ring|lia|exact ND'|lia|].
      intros y Hy. pose proof (Z y (or_intror Hy)) as Zy. rewrite (Hq y), (Z r) in Zy by (left; reflexivity).
      assert (N : fsub y r <> f0) by (intros E; apply (fsub_eq_0 HF) in E; apply Nr; rewrite <- E; exact Hy).
      transitivity (fmul (fmul (finv (fsub y r)) (fsub y r)) (hev q y)); [rewrite (ff_inv _ HF _ N); ring|].
      transitivity (fmul (finv (fsub y r)) (fadd (fmul (fsub y r) (hev q y)) f0)); [ring|]. rewrite Zy. ring.
  Qed.
  Theorem poly_values D f y L : poly_le D f -> NoDup L -> D < length L -> (forall x, In x L -> f x = y) -> forall x, f x = y.
  Proof.
    intros Hf ND HL H x. pose proof (poly_sub D f (fun _ => y) Hf (poly_const D y)) as P. apply poly_hev in P. destruct P as [c [Lc Hc]].
    apply (fsub_eq_0 HF). rewrite Hc. apply (hev_roots (length c) c L); [lia|exact ND|lia|]. intros z Hz. rewrite <- Hc, (H z Hz). ring.
  Qed.

  Theorem poly_agree D f g L : poly_le D f -> poly_le D g -> NoDup L -> D < length L -> (forall x, In x L -> f x = g x) -> forall x, f x = g x.
  Proof.
    intros Hf Hg ND HL H x. apply (fsub_eq_0 HF). apply (poly_values D (fun x => fsub (f x) (g x)) f0 L (poly_sub D f g Hf Hg) ND HL).
    intros z Hz. rewrite (H z Hz). ring.
  Qed.

  (** ** Sums over all elements *)
  Lemma sum_add L f g : sum_over L (fun x => fadd (f x) (g x)) = fadd (sum_over L f) (sum_over L g).
  Proof. unfold sum_over. induction L as [|x L IH]; cbn [map fold_right]; [ring|]. rewrite IH. ring. Qed.
  Lemma sum_scale L a f : sum_over L (fun x => fmul a (f x)) = fmul a (sum_over L f).
  Proof. unfold sum_over. induction L as [|x L IH]; cbn [map fold_right]; [ring|]. rewrite IH. ring. Qed.
  Lemma sum_zero L : sum_over L (fun _ => f0) = f0.
  Proof. unfold sum_over. induction L as [|x L IH]; cbn [map fold_right]; [reflexivity|]. rewrite IH. ring. Qed.
  Lemma sum_ext L f g : (forall x, f x = g x) -> sum_over L f = sum_over L g.
  Proof. intros E. unfold sum_over. f_equal. apply map_ext. exact E. Qed.
  Lemma sum_perm L L' f : Permutation L L' -> sum_over L f = sum_over L' f.
  Proof.
    unfold sum_over. intros P. induction P; cbn [map fold_right]; [reflexivity|rewrite IHP; reflexivity|ring|congruence].
  Qed.
  Lemma sum_bij L f (g h : F -> F) : enumerates L -> (forall x, h (g x) = x) -> (forall x, g (h x) = x) -> sum_over L (fun x => f (g x)) = sum_over L f.
  Proof.
    intros [ND All] E1 E2. transitivity (sum_over (map g L) f); [unfold sum_over; rewrite map_map; reflexivity|]. apply sum_perm. apply NoDup_Permutation.
    - clear All. induction ND as [|x L Nx ND IH]; cbn [map]; constructor; [|exact IH].
      intros H. apply in_map_iff in H. destruct H as [y [Ey Hy]]. apply Nx. rewrite <- (E1 x), <- Ey, E1. exact Hy.
    - exact ND.
    - intros x. split; intros _; [apply All|]. apply in_map_iff. exists (h x). split; [apply E2|apply All].
  Qed.
  Lemma sum_one L : enumerates L -> sum_over L (fun _ => f1) = f0.
  Proof.
    intros HL. assert (E : sum_over L (fun x => fadd x f1) = sum_over L (fun x => x)).
    { apply (sum_bij L (fun x => x) (fun x => fadd x f1) (fun x => fsub x f1) HL); intros x; ring. }
    rewrite sum_add in E. transitivity (fsub (fadd (sum_over L (fun x => x)) (sum_over L (fun _ => f1))) (sum_over L (fun x => x))); [ring|]. rewrite E. ring.
  Qed.

  Lemma sum_power L k : enumerates L -> S k < length L -> sum_over L (fun x => fpow x k) = f0.
  Proof.
    intros HL Hk. destruct k as [|k]; [cbn [fpow]; apply sum_one, HL|].
    assert (D : exists g, g <> f0 /\ fpow g (S k) <> f1).
    { destruct HL as [ND All].
      set (ok := fun g => negb (feqb g f0) && negb (feqb (fpow g (S k)) f1)).
      destruct (existsb ok L) eqn:E.
      - apply existsb_exists in E. destruct E as [g [_ Hg]]. unfold ok in Hg. apply andb_true_iff in Hg. destruct Hg as [H1 H2]. exists g.
        apply negb_true_iff in H1. apply negb_true_iff in H2. split; intros E; apply (ff_eqb _ HF) in E; congruence.
      - exfalso. assert (P : forall x, fpow x (S k) = f1).
        { destruct (in_split f0 L (All f0)) as [L1 [L2 EL]].
          assert (NDs : NoDup (L1 ++ L2) /\ ~ In f0 (L1 ++ L2)) by (rewrite EL in ND; split; [apply NoDup_remove_1 in ND; exact ND|apply NoDup_remove_2 in ND; exact ND]).
          apply (poly_values (S k) (fun x => fpow x (S k)) f1 (L1 ++ L2)).
          - apply (poly_weaken (1 * S k)); [lia|]. apply (poly_pow 1 (fun x => x)). apply poly_id. lia.
          - apply NDs.
          - rewrite EL, app_length in Hk. cbn [length] in Hk. rewrite app_length. lia.
          - intros x Hx. assert (Nx : x <> f0) by (intros ->; apply (proj2 NDs), Hx).
            destruct (feq_dec HF (fpow x (S k)) f1) as [e|n]; [exact e|]. exfalso.
            assert (T : existsb ok L = true).
            { apply existsb_exists. exists x. split; [apply All|]. unfold ok. apply andb_true_iff. split; apply negb_true_iff; apply not_true_iff_false; intros H; apply (ff_eqb _ HF) in H; contradiction. }
            congruence. }
        apply (ff_one_neq_zero _ HF). rewrite <- (P f0). cbn [fpow]. ring. }
    destruct D as [g [Ng Hg]].
    assert (E : sum_over L (fun x => fpow (fmul g x) (S k)) = sum_over L (fun x => fpow x (S k))).
    { apply (sum_bij L (fun x => fpow x (S k)) (fmul g) (fmul (finv g)) HL).
      - intros x. transitivity (fmul (fmul (finv g) g) x); [ring|]. rewrite (ff_inv _ HF g Ng). ring.
      - intros x. transitivity (fmul (fmul (finv g) g) x); [ring|]. rewrite (ff_inv _ HF g Ng). ring. }
    assert (E2 : sum_over L (fun x => fpow (fmul g x) (S k)) = fmul (fpow g (S k)) (sum_over L (fun x => fpow x (S k)))).
    { rewrite <- sum_scale. apply sum_ext. intros x. apply (fpow_mul_base HF). }
    set (s := sum_over L (fun x => fpow x (S k))) in *. set (u := fpow g (S k)) in *.
    assert (N : fsub u f1 <> f0) by (intros H; apply (fsub_eq_0 HF) in H; contradiction).
    transitivity (fmul (fmul (finv (fsub u f1)) (fsub u f1)) s); [rewrite (ff_inv _ HF _ N); ring|].
    transitivity (fmul (finv (fsub u f1)) (fsub (fmul u s) s)); [ring|]. rewrite <- E2, E. ring.
  Qed.

  Theorem zero_sum D f L : poly_le D f -> enumerates L -> S D < length L -> sum_over L f = f0.
  Proof.
    intros [c [Lc Hc]] HL HD. rewrite (sum_ext L f (poly_at c) Hc). unfold poly_at.
    assert (P : forall n, n <= S D -> sum_over L (fun x => sumn n (fun k => fmul (nth k c f0) (fpow x k))) = f0).
    { induction n as [|n IH]; intros Hn; cbn [sumn].
      - apply sum_zero.
      - rewrite sum_add, IH, sum_scale, sum_power by (assumption || lia). ring. }
    apply P. exact Lc.
  Qed.
End PolyFun.
