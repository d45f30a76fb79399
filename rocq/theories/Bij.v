(** * Bij: bijections on vectors of a fixed length, composed from invertible layers *)
From Verif Require Import Base Field Spec LinAlg FieldPow.

Section Bij.
  Context {F : Type}.

  (** f maps length-t vectors to length-t vectors and has a two-sided inverse there *)
  Definition lbij (t : nat) (f : list F -> list F) : Prop :=
    (forall x, length x = t -> length (f x) = t) /\
    exists g, forall x, length x = t -> length (g x) = t /\ f (g x) = x /\ g (f x) = x.

  Lemma lbij_id t : lbij t (fun x => x).
  Proof. split; [auto|]. exists (fun x => x). auto. Qed.

  Lemma lbij_comp t f g : lbij t f -> lbij t g -> lbij t (fun x => f (g x)).
  Proof.
    intros [Lf [f' Hf]] [Lg [g' Hg]]. split; [auto|].
    exists (fun x => g' (f' x)). intros x Hx.
    destruct (Hf x Hx) as [A [B C]]. destruct (Hg (f' x) A) as [A' [B' C']].
    split; [exact A'|]. split; [rewrite B'; exact B|].
    destruct (Hf (g x) (Lg x Hx)) as [_ [_ D]]. rewrite D. apply Hg; exact Hx.
  Qed.

  Lemma lbij_ext t f g : lbij t f -> (forall x, length x = t -> f x = g x) -> lbij t g.
  Proof.
    intros [Lf [f' Hf]] E. split; [intros x Hx; rewrite <- E; auto|].
    exists f'. intros x Hx. destruct (Hf x Hx) as [A [B C]].
    rewrite <- !E by auto. auto.
  Qed.

  Lemma lbij_fold t {B} (f : list F -> B -> list F) l :
    (forall b, In b l -> lbij t (fun s => f s b)) -> lbij t (fun s => fold_left f l s).
  Proof.
    induction l as [|b l IH]; intros H; [apply lbij_id|]. simpl.
    apply (lbij_comp t (fun s => fold_left f l s) (fun s => f s b)).
    - apply IH. intros; apply H; right; assumption.
    - apply H. left; reflexivity.
  Qed.

  Lemma lbij_bijective t f m : lbij t f -> (forall x, length x = t -> m x = Ok (f x)) ->
    bijective_on t m.
  Proof.
    intros [Lf [g Hg]] E. repeat split.
    - intros x Hx. exists (f x). auto.
    - intros x x' y Hx Hx' A B. rewrite E in A, B by assumption.
      inversion A as [A']; inversion B as [B'].
      destruct (Hg x Hx) as [_ [_ C]]. destruct (Hg x' Hx') as [_ [_ C']].
      rewrite <- C, <- C'. f_equal. congruence.
    - intros y Hy. destruct (Hg y Hy) as [A [B C]]. exists (g y). split; [exact A|].
      rewrite E by exact A. rewrite B. reflexivity.
  Qed.

  Lemma bijective_on_ext t (f g : list F -> res (list F)) :
    bijective_on t f -> (forall x, length x = t -> g x = f x) -> bijective_on t g.
  Proof.
    intros [A [B C]] E. repeat split.
    - intros x Hx. rewrite E by exact Hx. auto.
    - intros x x' y Hx Hx' H H'. rewrite E in H, H' by assumption. eapply B; eauto.
    - intros y Hy. destruct (C y Hy) as [x [Hx H]]. exists x. rewrite E by exact Hx. auto.
  Qed.

  (** a different bijection at each position *)
  Lemma lbij_pointwise t (d : F) (h k : nat -> F -> F) :
    (forall i a, i < t -> k i (h i a) = a /\ h i (k i a) = a) ->
    lbij t (fun x => map (fun i => h i (nth i x d)) (seq 0 t)).
  Proof.
    intros H. split; [intros; rewrite map_length, seq_length; reflexivity|].
    exists (fun x => map (fun i => k i (nth i x d)) (seq 0 t)). intros x Hx.
    split; [rewrite map_length, seq_length; reflexivity|].
    split; apply (list_ext d); try (rewrite map_length, seq_length; auto);
      intros i Hi; rewrite nth_map_seq by exact Hi; rewrite nth_map_seq by exact Hi; apply H; exact Hi.
  Qed.

  (** a composition of layers is injective only if each layer is a bijection, provided that
      an injective layer is a bijection (true for the layers of a finite field) *)
  Definition linj (t : nat) (f : list F -> list F) : Prop :=
    forall x y, length x = t -> length y = t -> f x = f y -> x = y.
  Definition run_layers (fs : list (list F -> list F)) (s : list F) : list F :=
    fold_left (fun s f => f s) fs s.

  Lemma lbij_inj t f : lbij t f -> linj t f.
  Proof.
    intros [L [g Hg]] x y Hx Hy E. destruct (Hg x Hx) as [_ [_ A]]. destruct (Hg y Hy) as [_ [_ B]].
    rewrite <- A, <- B, E. reflexivity.
  Qed.

  Lemma peel t fs :
    Forall (fun f => linj t f -> lbij t f) fs -> linj t (run_layers fs) -> Forall (lbij t) fs.
  Proof.
    induction fs as [|f fs IH]; intros Hb Hinj; [constructor|].
    inversion Hb as [|? ? Hf Hfs]; subst.
    assert (Hfb : lbij t f).
    { apply Hf. intros x y Hx Hy E. apply Hinj; try assumption. unfold run_layers. simpl. rewrite E. reflexivity. }
    constructor; [exact Hfb|]. apply IH; [exact Hfs|].
    intros x y Hx Hy E. destruct Hfb as [L [g Hg]].
    destruct (Hg x Hx) as [A [B _]]. destruct (Hg y Hy) as [A' [B' _]].
    rewrite <- B, <- B'. f_equal. apply Hinj; try assumption.
    unfold run_layers in *. simpl. rewrite B, B'. exact E.
  Qed.

  Lemma run_layers_lbij t fs : Forall (lbij t) fs -> lbij t (run_layers fs).
  Proof.
    intros H. unfold run_layers. apply (lbij_fold t (fun s f => f s)).
    rewrite Forall_forall in H. exact H.
  Qed.

  Lemma run_layers_app fs gs s : run_layers (fs ++ gs) s = run_layers gs (run_layers fs s).
  Proof. apply fold_left_app. Qed.

  Lemma run_layers_flat {B} (h : B -> list (list F -> list F)) l s :
    run_layers (flat_map h l) s = fold_left (fun s b => run_layers (h b) s) l s.
  Proof.
    revert s; induction l as [|b l IH]; intros s; [reflexivity|]. simpl. rewrite run_layers_app. apply IH.
  Qed.

  Lemma bijective_inj t f m : bijective_on t m -> (forall x, length x = t -> m x = Ok (f x)) -> linj t f.
  Proof.
    intros [_ [Hi _]] E x y Hx Hy Exy. apply (Hi x y (f x)); try assumption; [apply E; exact Hx|].
    rewrite E by exact Hy. rewrite Exy. reflexivity.
  Qed.

  Context {Fo : FOps F} (HF : is_field Fo).
  Add Ring FringBij : (ff_ring _ HF).

  Lemma linj_mat t A : linj t (mat_apply t t A) -> nonsingular t A.
  Proof.
    intros H. apply nonsingular_lists. intros x Hx E. apply H; [exact Hx|apply repeat_length|].
    rewrite E. symmetry. apply (list_ext f0); [rewrite mat_apply_length, repeat_length; reflexivity|].
    intros i Hi. rewrite mat_apply_length in Hi. rewrite mat_apply_nth, nth_repeat_same by exact Hi.
    apply (sumn_zero HF). intros j Hj. rewrite nth_repeat_same. ring.
  Qed.

  Lemma lbij_mat t A : nonsingular t A -> lbij t (mat_apply t t A).
  Proof.
    intros HN. destruct (nonsingular_invertible HF t A HN) as [B [HAB HBA]].
    split; [intros; apply mat_apply_length|]. exists (mat_apply t t B). intros x Hx.
    split; [apply mat_apply_length|]. split; apply (mat_apply_inverse HF); assumption.
  Qed.
End Bij.

(** x -> x^d is a bijection of a prime field when d is coprime to p - 1 *)
Section Pow.
  Context {F : Type} {Fo : FOps F} {p : Z} (HP : is_prime_field Fo p).

  Lemma pow_inverse d : d <> 0 -> Z.gcd (Z.of_nat d) (p - 1) = 1%Z ->
    exists r : F -> F, forall x, r (fpow x d) = x /\ fpow (r x) d = x.
  Proof.
    intros Hd Hg. destruct (pow_bij HP d Hd Hg) as [e He]. exists (fun x => fpow x e). exact He.
  Qed.
End Pow.
