(** * MinPolyCert: computed certificates that the powers of all-ones + diag(d) have irreducible minimal polynomials *)
From Verif Require Import Base Field Spec SpecPoseidon SpecMinPoly LinAlg FieldPow LinOp Rabin Freshman PolyMod Vec Transfer Elim.
Local Open Scope nat_scope.

(** all-ones plus a diagonal *)
Definition jmat {F} {Fo : FOps F} (d : list F) : mat := fun i j => if i =? j then fadd f1 (nth i d f0) else f1.

(** no monic polynomial of degree < t in A kills a nonzero vector *)
Definition no_small {F} {Fo : FOps F} (t : nat) (A : mat) : Prop :=
  forall h w, length h < t -> (exists j, j < t /\ w j <> f0) ->
    ~ forall i, i < t -> sumn t (fun j => fmul (mat_poly t (h ++ [f1]) A i j) (w j)) = f0.

Section Compute.
  Context {F : Type} {Fo : FOps F}.
  Definition japply (d x : list F) : list F :=
    let s := fold_left fadd x f0 in map (fun '(a, b) => fadd (fmul a b) s) (combine d x).
  Fixpoint jact (d g v : list F) : list F :=
    match g with [] => repeat f0 (length v) | c :: g' => paxpy c v (japply d (jact d g' v)) end.
  Definition kills_b (d f : list F) : bool :=
    let t := length d in
    forallb (fun k => leqb (jact d (f ++ [f1]) (map (fun i => if i =? k then f1 else f0) (seq 0 t))) (repeat f0 t)) (seq 0 t).
  Definition minpoly_b (d f : list F) (p L : positive) (n : nat) (qs : list (nat * list F * list F)) : bool :=
    let t := length d in
    if 2 <=? t then if length f =? t then if multiple_b L n then if divisors_b t (map (fun '(q, _, _) => q) qs) then
    if kills_b d f then rabin_b f p L qs else false else false else false else false else false.
End Compute.

Section Correct.
  Context {F : Type} {Fo : FOps F} {p : Z} (HP : is_prime_field Fo p).
  Let HF : is_field Fo := prime_field_is_field HP.
  Add Ring FringMC : (ff_ring _ HF).
  Context {t : nat}.

  Lemma list_vec (l : list F) : length l = t -> l = map (fun i => nth i l f0) (seq 0 t).
  Proof. intros <-. apply list_as_map. Qed.

  Lemma japply_ok d (v : vec F t) : length d = t -> japply d (proj1_sig v) = proj1_sig (mop (jmat d) v).
  Proof.
    intros Hd. pose proof (vec_length v) as Lv. cbn [proj1_sig mop mkvec].
    rewrite (list_vec (japply d (proj1_sig v))) by (unfold japply; rewrite map_length, combine_length; lia).
    apply map_ext_in. intros i Hi. apply in_seq in Hi. unfold japply.
    rewrite (nth_map_d _ _ i (f0, f0)) by (rewrite combine_length; lia). rewrite combine_nth by lia.
    rewrite (fold_left_fadd HF), Lv. fold (vc v i).
    transitivity (fadd (sumn t (fun j => if j =? i then fmul (nth i d f0) (vc v i) else f0)) (sumn t (fun j => vc v j))).
    { rewrite (sumn_single HF t i (fun j => if j =? i then fmul (nth i d f0) (vc v i) else f0)); [rewrite Nat.eqb_refl; unfold vc; ring|lia|].
      intros j Hj N. destruct (Nat.eqb_spec j i); [contradiction|reflexivity]. }
    rewrite <- (sumn_add HF). apply sumn_ext. intros j Hj. unfold jmat. rewrite (Nat.eqb_sym i j).
    destruct (Nat.eqb_spec j i) as [->|N]; ring.
  Qed.

  Notation act A := (LinOp.act (vz := vz) (vadd := vadd) (vsc := vsc) (A := A)).

  Lemma jact_ok d (v : vec F t) : length d = t -> forall g, jact d g (proj1_sig v) = proj1_sig (act (mop (jmat d)) g v).
  Proof.
    intros Hd. induction g as [|c g IH]; cbn [jact LinOp.act].
    - rewrite vec_length. cbn. symmetry. apply map_const_repeat.
    - rewrite IH, japply_ok by exact Hd. set (u := mop (jmat d) (act (mop (jmat d)) g v)).
      rewrite (list_vec (paxpy c (proj1_sig v) (proj1_sig u))) by (apply paxpy_length; apply vec_length).
      unfold vadd, mkvec. cbn [proj1_sig]. apply map_ext_in. intros i Hi. apply in_seq in Hi.
      unfold paxpy. rewrite (nth_map_d _ _ i (f0, f0)) by (rewrite combine_length, !vec_length; lia).
      rewrite combine_nth by (rewrite !vec_length; reflexivity).
      unfold vsc. rewrite vc_mk by lia. reflexivity.
  Qed.

  Lemma kills_ok d f : length d = t -> kills_b d f = true -> forall v : vec F t, act (mop (jmat d)) (f ++ [f1]) v = vz.
  Proof.
    intros Hd H. unfold kills_b in H. rewrite Hd, forallb_forall in H.
    apply (annihilates_act HF). intros i k Hi Hk. specialize (H k). rewrite in_seq in H. specialize (H ltac:(lia)).
    apply (leqb_true HP) in H. change (map (fun i => if i =? k then f1 else f0) (seq 0 t)) with (proj1_sig (unit_vec (t := t) k)) in H.
    rewrite jact_ok in H by exact Hd. rewrite (act_poly HF) in H.
    rewrite <- (mop_unit HF (mat_poly t (f ++ [f1]) (jmat d)) i k Hi Hk). unfold vc. rewrite H. apply nth_repeat.
  Qed.

  Theorem minpoly_ok d f pp L n qs : p = Zpos pp -> length d = t -> minpoly_b d f pp L n qs = true ->
    forall i, 1 <= i <= n -> no_small t (mat_pow t (jmat d) i).
  Proof.
    intros Hp Hd H i Hi. unfold minpoly_b in H. rewrite Hd in H.
    destruct (2 <=? t) eqn:E1; [|discriminate]. apply Nat.leb_le in E1.
    destruct (length f =? t) eqn:E2; [|discriminate]. apply Nat.eqb_eq in E2.
    destruct (multiple_b L n) eqn:E3; [|discriminate].
    destruct (divisors_b t _) eqn:E4; [|discriminate].
    destruct (kills_b d f) eqn:E5; [|discriminate].
    intros h w Hh [j [Hj Hw]] Hz.
    apply (powers_irreducible HP (vec_module HF) (mop_linear HF (jmat d)) E1 E2 (kills_ok d f Hd E5) Hp H E3 E4 i h (mkvec w) Hi Hh).
    - intros E. apply Hw. pose proof (vc_mk (t := t) w j Hj) as Ej. rewrite E in Ej. rewrite <- Ej. exact (vc_mk (fun _ => f0) j Hj).
    - rewrite <- (act_ext (mop (mat_pow t (jmat d) i))) by (intros v; apply (mop_pow HF)).
      rewrite (act_poly HF). apply mop_units. intros k Hk. rewrite <- (Hz k Hk). apply sumn_ext. intros l Hl. rewrite vc_mk by exact Hl. reflexivity.
  Qed.

  Lemma no_small_vec A : no_small t A -> forall h (w : vec F t), length h < t -> w <> vz -> act (mop A) (h ++ [f1]) w <> vz.
  Proof.
    intros H h w Hh Hw E. rewrite (act_poly HF) in E. 
    assert (D : forall n, (forall i, i < n -> vc w i = f0) \/ exists i, i < n /\ vc w i <> f0).
    { intros n. induction n as [|n [IH|[i [Hi Hn]]]].
      - left. intros i Hi. lia.
      - destruct (feq_dec HF (vc w n) f0) as [E0|E0].
        + left. intros i Hi. destruct (Nat.eq_dec i n) as [->|N]; [exact E0|]. apply IH. lia.
        + right. exists n. split; [lia|exact E0].
      - right. exists i. split; [lia|exact Hn]. }
    destruct (D t) as [D0|D0].
    - apply Hw. apply vec_ext. intros i Hi. unfold vz. rewrite vc_mk by exact Hi. apply D0, Hi.
    - apply (H h (vc w) Hh D0). apply mop_units. exact E.
  Qed.
End Correct.

(** ** Any field with p elements *)
Section Transfer.
  Context {F : Type} {Fo : FOps F} {G : Type} {Go : FOps G} {p : Z}
          (HPF : is_prime_field Fo p) (HPG : is_prime_field Go p).
  Lemma no_small_transfer t (A : nat -> nat -> F) (B : nat -> nat -> G) :
    (forall i j, i < t -> j < t -> B i j = phi (A i j)) -> no_small t A -> no_small t B.
  Proof.
    intros E H h w Hh [j [Hj Hw]] Hz.
    apply (H (map psi h) (fun i => psi (w i))).
    - rewrite map_length. exact Hh.
    - exists j. split; [exact Hj|]. intros E0. apply Hw. rewrite <- (phi_psi HPF HPG (w j)), E0. apply (phi_0 HPF HPG).
    - intros i Hi. apply (phi_inj HPF HPG). rewrite (phi_sumn HPF HPG), (phi_0 HPF HPG), <- (Hz i Hi).
      apply sumn_ext. intros k Hk. rewrite (phi_mul HPF HPG), (phi_psi HPF HPG). f_equal.
      unfold mat_poly. rewrite (phi_sumn HPF HPG), !app_length, map_length. apply sumn_ext. intros l Hl.
      rewrite (phi_mul HPF HPG). f_equal; [|symmetry; apply (mat_pow_transfer HPF HPG); assumption].
      cbn in Hl. destruct (Nat.lt_ge_cases l (length h)) as [Ll|Ll].
      + rewrite !app_nth1 by (rewrite ?map_length; exact Ll). rewrite (nth_indep _ f0 (psi f0)) by (rewrite map_length; exact Ll).
        rewrite map_nth. apply (phi_psi HPF HPG).
      + replace l with (length h) by lia. rewrite nth_middle.
        replace (length h) with (length (map (psi (F := F)) h)) by apply map_length. rewrite nth_middle. apply (phi_1 HPF HPG).
  Qed.
End Transfer.
