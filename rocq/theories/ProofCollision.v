(** * ProofCollision: with an exponent not coprime to p-1 every accepted instance has collisions (C49) *)
From Verif Require Import SpecFields Base Field Spec FieldPow LinAlg Bij Poly.
From Verif Require Import ModelUtils ModelPoseidon2 ModelPoseidon SpecPoseidon2 SpecPoseidon.
From Verif Require Import ProofPoseidon2 ProofPoseidon2Lin ProofPoseidon2Bij ProofPoseidon ProofPoseidonOpt ProofPoseidonFin.

Lemma collision_or_injective {A B} (f : A -> B) (decA : forall x y : A, {x = y} + {x <> y})
      (decB : forall x y : B, {x = y} + {x <> y}) (l : list A) :
  (exists x y, In x l /\ In y l /\ x <> y /\ f x = f y) \/
  (forall x y, In x l -> In y l -> f x = f y -> x = y).
Proof.
  induction l as [|a l IH]; [right; intros x y []|].
  destruct IH as [[x [y [Hx [Hy H]]]]|IH].
  - left. exists x, y. split; [right; exact Hx|]. split; [right; exact Hy|exact H].
  - destruct (Exists_dec (fun y => y <> a /\ f y = f a) l) as [E|E].
    { intros y. destruct (decA y a); [right; intros [? _]; contradiction|].
      destruct (decB (f y) (f a)); [left; split; assumption|right; intros [_ ?]; contradiction]. }
    + left. apply Exists_exists in E. destruct E as [y [Hy [Hn He]]].
      exists y, a. split; [right; exact Hy|]. split; [left; reflexivity|]. split; assumption.
    + right. assert (G : forall y, In y l -> f y = f a -> y = a).
      { intros y Hy Ey. destruct (decA y a) as [e|n]; [exact e|exfalso]. apply E. apply Exists_exists.
        exists y. auto. }
      intros x y [<-|Hx] [<-|Hy] Exy; [reflexivity| | |apply IH; assumption].
      * symmetry. apply G; [exact Hy|symmetry; exact Exy].
      * apply G; assumption.
Qed.

Section Collision.
  Context {F : Type} {Fo : FOps F} {p : Z} (HP : is_prime_field Fo p).
  Let HF : is_field Fo := prime_field_is_field HP.

  Fixpoint all_vecs (t : nat) : list (list F) :=
    match t with
    | O => [[]]
    | S k => flat_map (fun v => map (fun a => a :: v) (f0 :: units (p := p))) (all_vecs k)
    end.
  Lemma all_vecs_In t : forall x, In x (all_vecs t) <-> length x = t.
  Proof.
    induction t as [|t IH]; intros x; cbn [all_vecs].
    - split; [intros [<-|[]]; reflexivity|]. destruct x; [left; reflexivity|discriminate].
    - rewrite in_flat_map. split.
      + intros [v [Hv Hx]]. apply in_map_iff in Hx. destruct Hx as [a [<- _]]. apply IH in Hv. cbn. lia.
      + destruct x as [|a v]; [discriminate|]. intros Hx. exists v. split; [apply IH; cbn in Hx; lia|].
        apply in_map_iff. exists a. split; [reflexivity|].
        destruct (feq_dec HF a f0) as [->|Ha]; [left; reflexivity|right].
        apply (units_In HP). exact Ha.
  Qed.

  Lemma collision_or_linj t (g : list F -> list F) (f : list F -> res (list F)) :
    (forall x, length x = t -> f x = Ok (g x)) -> collision t f \/ linj t g.
  Proof.
    intros E.
    assert (dec : forall x y : list F, {x = y} + {x <> y}) by (apply list_eq_dec, (feq_dec HF)).
    destruct (collision_or_injective g dec dec (all_vecs t)) as [[x [y [Hx [Hy [Hn He]]]]]|H].
    - left. apply all_vecs_In in Hx, Hy. exists x, y, (g x). rewrite !E by assumption.
      repeat split; try assumption. rewrite He. reflexivity.
    - right. intros x y Hx Hy Exy. apply H; [apply all_vecs_In; exact Hx|apply all_vecs_In; exact Hy|exact Exy].
  Qed.

  Theorem p2_collision dbg t d rf rp diag mi rc P :
    p2_new dbg t d rf rp diag mi rc = Ok P ->
    (N.of_nat rf + N.of_nat rp < usize_mod)%N ->
    p2_width t -> sbox_degree d -> p2_data_ok t rf rp diag rc -> 0 < rf + rp ->
    Z.gcd (Z.of_nat d) (p - 1) <> 1%Z -> collision t (p2_permutation dbg P).
  Proof.
    intros Hnew Hb Hw Hd Hdata Hr Hg.
    assert (Hd0 : d <> 0) by (unfold sbox_degree in Hd; simpl in Hd; intros ->; intuition discriminate).
    destruct (p2_new_ok _ _ _ _ _ _ _ _ _ Hnew Hb) as [_ [Hev _]]. pose proof (even_half rf Hev) as Hh.
    destruct (collision_or_linj t (p2_ref t d rf rp diag rc) (p2_permutation dbg P)) as [C|Hi]; [|exact C|].
    { intros x Hx. apply (p2_permutation_ref HF dbg t d rf rp diag mi rc P x); assumption. }
    exfalso. pose proof (p2_width_pos t Hw) as Ht.
    destruct (p2_ref_inj HP t d rf rp diag rc ltac:(lia) Hd0 Hi) as [[A|A] _]; [lia|contradiction].
  Qed.

  Theorem ps_collision dbg t d rf rp (mds rc : list (list F)) P :
    ps_new dbg t d rf rp mds rc = Ok P -> (N.of_nat rf + N.of_nat rp < usize_mod)%N -> dims t t mds ->
    ps_rows_ok t rf rp rc -> Z.gcd (Z.of_nat d) (p - 1) <> 1%Z ->
    collision t (ps_permutation dbg P) /\ collision t (ps_permutation_not_opt dbg P).
  Proof.
    intros H Hov Hd HR Hg. pose proof (ps_new_wide _ _ _ _ _ _ _ _ H) as [Ht Hp].
    destruct (ps_new_ok _ _ _ _ _ _ _ _ H Hov) as [Hs [_ [He [m_i [v [w [opt [_ [EC _]]]]]]]]].
    destruct (ps_erc_ok HF _ _ _ _ _ _ _ Hd Ht (half_ov _ _ Hov) EC) as [_ [HL _]].
    assert (HM : nonsingular t (entry mds)) by (apply HL; lia).
    assert (Hd0 : d <> 0) by (unfold sbox_degree in Hs; simpl in Hs; intros ->; intuition discriminate).
    assert (Href : forall x, length x = t -> ps_permutation dbg P x = Ok (ps_ref t d rf rp (entry mds) rc x) /\
                     ps_permutation_not_opt dbg P x = Ok (ps_ref t d rf rp (entry mds) rc x)).
    { intros x Hx. apply (ps_permutation_ref HF dbg t d rf rp mds rc P x H Hov Hd HR). exact Hx. }
    assert (Hni : ~ linj t (ps_ref t d rf rp (entry mds) rc)).
    { intros Hi. apply Hg. apply (ps_ref_inj_gcd HP t d rf rp (entry mds) rc ltac:(lia) HM Hd0 Hp Hi). }
    split.
    - destruct (collision_or_linj t (ps_ref t d rf rp (entry mds) rc) (ps_permutation dbg P)) as [C|Hi];
        [intros x Hx; apply Href; exact Hx|exact C|contradiction].
    - destruct (collision_or_linj t (ps_ref t d rf rp (entry mds) rc) (ps_permutation_not_opt dbg P)) as [C|Hi];
        [intros x Hx; apply Href; exact Hx|exact C|contradiction].
  Qed.
End Collision.
