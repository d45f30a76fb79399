(** * mat_inverse: soundness, exact success condition, debug = release (C18-C20) *)
From Verif Require Import Base Field Spec LinAlg LoopLemmas MatLoops ModelUtils.

Section MatInverse.
  Context {F : Type} {Fo : FOps F} (HF : is_field Fo).
  Add Ring FringMI : (ff_ring _ HF).

  (** replace row r of f by g *)
  Definition rowset (f : nat -> nat -> F) (r : nat) (g : nat -> F) : nat -> nat -> F :=
    fun a b => if a =? r then g b else f a b.
  Definition pw (k : nat) (f g : nat -> F) : nat -> F := fun c => if c <? k then f c else g c.

  Lemma row_loop n (fm fv : nat -> nat -> F) r (gm gv : nat -> F) body :
    (forall k, k < n ->
       body k (mk_mat n n (rowset fm r (pw k gm (fm r))), mk_mat n n (rowset fv r (pw k gv (fv r)))) =
       Ok (mk_mat n n (rowset fm r (pw (S k) gm (fm r))), mk_mat n n (rowset fv r (pw (S k) gv (fv r))))) ->
    for_range 0 n body (mk_mat n n fm, mk_mat n n fv) =
    Ok (mk_mat n n (rowset fm r gm), mk_mat n n (rowset fv r gv)).
  Proof.
    intros Hb.
    destruct (for_range_inv (fun k st => st = (mk_mat n n (rowset fm r (pw k gm (fm r))), mk_mat n n (rowset fv r (pw k gv (fv r)))))
                0 n body (mk_mat n n fm, mk_mat n n fv)) as [s [E ->]].
    - lia.
    - f_equal; apply mk_mat_ext; intros i j _ _; unfold rowset, pw;
        (destruct (Nat.eqb_spec i r) as [->|]; reflexivity).
    - intros k s Hk ->. eexists. split; [apply Hb; lia|reflexivity].
    - rewrite E. f_equal. f_equal; apply mk_mat_ext; intros i j _ Hj; unfold rowset, pw;
        (destruct (Nat.eqb_spec i r); [destruct (Nat.ltb_spec j n); [reflexivity|lia]|reflexivity]).
  Qed.

  (** one assignment inside the row loop *)
  Lemma row_upd n f r k g v : r < n -> k < n -> v = g k ->
    upd2 (mk_mat n n (rowset f r (pw k g (f r)))) r k v = Ok (mk_mat n n (rowset f r (pw (S k) g (f r)))).
  Proof.
    intros Hr Hk ->. rewrite upd2_mk by assumption. f_equal. apply mk_mat_ext. intros i j Hi Hj.
    unfold fupd, rowset, pw.
    destruct (Nat.eqb_spec i r) as [->|]; cbn [andb]; [|reflexivity].
    destruct (Nat.eqb_spec j k) as [->|].
    - destruct (Nat.ltb_spec k (S k)); [reflexivity|lia].
    - destruct (Nat.ltb_spec j k), (Nat.ltb_spec j (S k)); try lia; reflexivity.
  Qed.
  Lemma row_keep n f r k g : r < n -> k < n -> g k = f r k ->
    mk_mat n n (rowset f r (pw k g (f r))) = mk_mat n n (rowset f r (pw (S k) g (f r))).
  Proof.
    intros Hr Hk E. apply mk_mat_ext. intros i j Hi Hj. unfold rowset, pw.
    destruct (Nat.eqb_spec i r) as [->|]; [|reflexivity].
    destruct (Nat.ltb_spec j k), (Nat.ltb_spec j (S k)); try lia; try reflexivity.
    assert (j = k) by lia. subst. symmetry. exact E.
  Qed.
  Lemma row_idx_cur n f r k g : r < n -> k < n ->
    idx2 (mk_mat n n (rowset f r (pw k g (f r)))) r k = Ok (f r k).
  Proof.
    intros. rewrite idx2_mk by assumption. unfold rowset, pw. rewrite Nat.eqb_refl.
    destruct (Nat.ltb_spec k k); [lia|reflexivity].
  Qed.
  Lemma row_idx_other n f r g i j : i < n -> j < n -> i <> r ->
    idx2 (mk_mat n n (rowset f r g)) i j = Ok (f i j).
  Proof.
    intros. rewrite idx2_mk by assumption. unfold rowset. destruct (Nat.eqb_spec i r); [contradiction|reflexivity].
  Qed.

  Lemma mi_down_loop n fm fv row j el : row < n -> j < n -> j <> row ->
    for_range 0 n (mi_down_col row j el) (mk_mat n n fm, mk_mat n n fv) =
    Ok (mk_mat n n (rowset fm row (fun c => if c <? j then f0 else fsub (fm row c) (fmul (fm j c) el))),
        mk_mat n n (rowset fv row (fun c => if row <? c then f0 else fsub (fv row c) (fmul (fv j c) el)))).
  Proof.
    intros Hr Hj Hne. apply row_loop. intros k Hk. unfold mi_down_col.
    rewrite (row_idx_other n fm row _ j k) by assumption.
    rewrite (row_idx_other n fv row _ j k) by assumption.
    rewrite !row_idx_cur by assumption. cbn [bind].
    destruct (Nat.ltb_spec k j) as [L|L]; destruct (Nat.ltb_spec row k) as [L'|L'];
      (rewrite row_upd; [|exact Hr|exact Hk|destruct (Nat.ltb_spec k j); [reflexivity || lia|reflexivity || lia]]);
      cbn [bind];
      (rewrite row_upd; [reflexivity|exact Hr|exact Hk|destruct (Nat.ltb_spec row k); [reflexivity || lia|reflexivity || lia]]).
  Qed.

  Lemma mi_scale_loop n fm fv row el : row < n ->
    for_range 0 n (mi_scale_col row el) (mk_mat n n fm, mk_mat n n fv) =
    Ok (mk_mat n n (rowset fm row (fun c => if c <? row then fm row c else if c =? row then f1 else fmul (fm row c) el)),
        mk_mat n n (rowset fv row (fun c => if c <=? row then fmul (fv row c) el else fv row c))).
  Proof.
    intros Hr. apply row_loop. intros k Hk. unfold mi_scale_col.
    rewrite !row_idx_cur by assumption. cbn [bind].
    destruct (Nat.compare_spec k row) as [E|L|L].
    - rewrite row_upd; [|exact Hr|exact Hk|]. 
      2:{ destruct (Nat.ltb_spec k row); [lia|]. destruct (Nat.eqb_spec k row); [reflexivity|lia]. }
      cbn [bind]. rewrite row_upd; [reflexivity|exact Hr|exact Hk|]. destruct (Nat.leb_spec k row); [reflexivity|lia].
    - rewrite row_upd; [|exact Hr|exact Hk|]. 2:{ destruct (Nat.leb_spec k row); [reflexivity|lia]. }
      cbn [bind]. rewrite <- (row_keep n fm row k); [reflexivity|exact Hr|exact Hk|].
      destruct (Nat.ltb_spec k row); [reflexivity|lia].
    - rewrite row_upd; [|exact Hr|exact Hk|].
      2:{ destruct (Nat.ltb_spec k row); [lia|]. destruct (Nat.eqb_spec k row); [lia|reflexivity]. }
      cbn [bind]. rewrite <- (row_keep n fv row k); [reflexivity|exact Hr|exact Hk|].
      destruct (Nat.leb_spec k row); [lia|reflexivity].
  Qed.

  Lemma mi_up_loop dbg n fm fv row j el : row < n -> j < n -> j <> row ->
    for_range 0 n (mi_up_col dbg row j el) (mk_mat n n fm, mk_mat n n fv) =
    Ok (mk_mat n n (rowset fm row (fun c => if dbg && (j <=? c) then f0 else fm row c)),
        mk_mat n n (rowset fv row (fun c => fsub (fv row c) (fmul (fv j c) el)))).
  Proof.
    intros Hr Hj Hne. apply row_loop. intros k Hk. unfold mi_up_col.
    rewrite (row_idx_other n fv row _ j k) by assumption.
    rewrite !row_idx_cur by assumption. cbn [bind].
    destruct (dbg && (j <=? k)) eqn:E.
    - rewrite row_upd; [|exact Hr|exact Hk|rewrite E; reflexivity]. cbn [bind].
      rewrite row_upd; [reflexivity|exact Hr|exact Hk|reflexivity].
    - cbn [bind]. rewrite row_upd; [|exact Hr|exact Hk|reflexivity]. cbn [bind].
      rewrite <- (row_keep n fm row k); [reflexivity|exact Hr|exact Hk|rewrite E; reflexivity].
  Qed.

  Lemma mi_identity_ok n : mi_identity n = Ok (mk_mat n n mat_id).
  Proof.
    unfold mi_identity. rewrite zero_mat.
    destruct (for_range_inv (fun k m => m = mk_mat n n (fun i j => if (i =? j) && (i <? k) then f1 else f0))
                0 n (fun i inv => upd2 inv i i f1) (mk_mat n n (fun _ _ => f0))) as [s [E ->]].
    - lia.
    - apply mk_mat_ext. intros i j _ _. rewrite andb_false_r. reflexivity.
    - intros k s Hk ->. eexists. split; [apply upd2_mk; lia|]. apply mk_mat_ext. intros i j Hi Hj. unfold fupd.
      destruct (Nat.eqb_spec i k), (Nat.eqb_spec j k), (Nat.eqb_spec i j), (Nat.ltb_spec i k), (Nat.ltb_spec i (S k));
        cbn [andb]; try lia; reflexivity.
    - rewrite E. f_equal. apply mk_mat_ext. intros i j Hi Hj. unfold mat_id.
      destruct (Nat.eqb_spec i j); cbn [andb]; [|reflexivity]. destruct (Nat.ltb_spec i n); [reflexivity|lia].
  Qed.

  (** ** Phase 1 *)
  Section Phase1.
    Context (n : nat) (A : @mat F).

    (** rows i of V satisfy (V A) i = M i *)
    Definition prod_ok (M V : @mat F) (i : nat) : Prop :=
      forall j, j < n -> sumn n (fun k => fmul (V i k) (A k j)) = M i j.

    Record down_inv (r : nat) (M V : @mat F) : Prop := {
      di_prod : forall i, i < n -> prod_ok M V i;
      di_low : forall i k, i < n -> i < k -> k < n -> V i k = f0;
      di_unit : forall i, i < r -> M i i = f1;
      di_zero : forall i j, i < r -> j < i -> M i j = f0;
      di_vrest : forall i, r <= i -> i < n -> V i i = f1;
      di_nz : forall i, i < n -> V i i <> f0
    }.

    Record row_inv (r j : nat) (M V : @mat F) : Prop := {
      ri_down : down_inv r M V;
      ri_zero : forall c, c < j -> M r c = f0
    }.

    Lemma row_step r j M V : r < n -> j < r -> row_inv r j M V ->
      let M' := rowset M r (fun c => if c <? j then f0 else fsub (M r c) (fmul (M j c) (M r j))) in
      let V' := rowset V r (fun c => if r <? c then f0 else fsub (V r c) (fmul (V j c) (M r j))) in
      row_inv r (S j) M' V'.
    Proof.
      intros Hr Hj [[P1 P2 P3 P4 P5 P6] Hz] M' V'.
      assert (Mr : forall c, c < n -> M' r c = fsub (M r c) (fmul (M j c) (M r j))).
      { intros c Hc. unfold M', rowset. rewrite Nat.eqb_refl. destruct (Nat.ltb_spec c j) as [L|L]; [|reflexivity].
        rewrite Hz by exact L. rewrite (P4 j c) by lia. ring. }
      assert (Vr : forall c, c < n -> V' r c = fsub (V r c) (fmul (V j c) (M r j))).
      { intros c Hc. unfold V', rowset. rewrite Nat.eqb_refl. destruct (Nat.ltb_spec r c) as [L|L]; [|reflexivity].
        rewrite (P2 r c) by lia. rewrite (P2 j c) by lia. ring. }
      assert (Mo : forall i c, i <> r -> M' i c = M i c).
      { intros i c Hi. unfold M', rowset. destruct (Nat.eqb_spec i r); [contradiction|reflexivity]. }
      assert (Vo : forall i c, i <> r -> V' i c = V i c).
      { intros i c Hi. unfold V', rowset. destruct (Nat.eqb_spec i r); [contradiction|reflexivity]. }
      assert (Vd : V' r r = V r r).
      { rewrite Vr by exact Hr. rewrite (P2 j r) by lia. ring. }
      constructor; [constructor|].
      - intros i Hi l Hl. destruct (Nat.eq_dec i r) as [->|Ni].
        + rewrite Mr by exact Hl. rewrite <- (P1 r Hr l Hl), <- (P1 j ltac:(lia) l Hl).
          rewrite <- (sumn_mul_r HF), <- (sumn_sub HF). apply sumn_ext. intros k Hk. rewrite Vr by exact Hk. ring.
        + rewrite Mo by exact Ni. rewrite <- (P1 i Hi l Hl). apply sumn_ext. intros k Hk. rewrite Vo by exact Ni. reflexivity.
      - intros i k Hi Hk Hkn. destruct (Nat.eq_dec i r) as [->|Ni].
        + rewrite Vr by exact Hkn. rewrite (P2 r k), (P2 j k) by lia. ring.
        + rewrite Vo by exact Ni. apply P2; assumption.
      - intros i Hi. rewrite Mo by lia. apply P3; exact Hi.
      - intros i l Hi Hl. rewrite Mo by lia. apply P4; assumption.
      - intros i Hi Hin. destruct (Nat.eq_dec i r) as [->|Ni]; [rewrite Vd; apply P5; lia|]. rewrite Vo by exact Ni. apply P5; assumption.
      - intros i Hi. destruct (Nat.eq_dec i r) as [->|Ni]; [rewrite Vd; apply P6; lia|]. rewrite Vo by exact Ni. apply P6; assumption.
      - intros c Hc. rewrite Mr by lia. destruct (Nat.eq_dec c j) as [->|].
        + rewrite (P3 j) by lia. ring.
        + rewrite Hz by lia. rewrite (P4 j c) by lia. ring.
    Qed.

    (** the pivot is non-zero iff the leading block is nonsingular *)
    Lemma leading_prod M V k i j : k <= n -> (forall i k', i < n -> i < k' -> k' < n -> V i k' = f0) ->
      prod_ok M V i -> i < k -> j < n -> sumn k (fun l => fmul (V i l) (A l j)) = M i j.
    Proof.
      intros Hk HV HP Hi Hj. rewrite <- (HP j Hj).
      replace n with (k + (n - k)) at 1 by lia. rewrite (sumn_split HF).
      rewrite (sumn_zero HF (n - k)).
      - ring.
      - intros l Hl. rewrite (HV i (k + l)) by lia. ring.
    Qed.

    Lemma upper_unit_nonsingular k (M : @mat F) :
      (forall i, i < k -> M i i <> f0) -> (forall i j, i < k -> j < i -> M i j = f0) -> nonsingular k M.
    Proof.
      intros Hd Hz x Hx.
      assert (G : forall m j, k - m <= j -> j < k -> x j = f0).
      { induction m as [|m IH]; intros j H1 H2; [lia|].
        destruct (le_lt_dec (k - m) j) as [L|L]; [apply IH; lia|].
        assert (Hj : j = k - S m) by lia.
        pose proof (Hx j H2) as E. rewrite (sumn_single HF k j) in E.
        - destruct (fmul_integral HF _ _ E) as [C|C]; [|exact C]. exfalso. apply (Hd j H2 C).
        - exact H2.
        - intros i Hi Hne. destruct (lt_dec i j) as [Lt|Nl].
          + rewrite Hz by assumption. ring.
          + rewrite (IH i) by lia. ring. }
      intros j Hj. apply (G k); lia.
    Qed.

    Lemma pivot_iff r M V : r < n -> row_inv r r M V -> (M r r <> f0 <-> nonsingular (S r) A).
    Proof.
      intros Hr [[P1 P2 P3 P4 P5 P6] Hz]. split.
      - intros Hp x Hx.
        apply (upper_unit_nonsingular (S r) M).
        + intros i Hi. destruct (Nat.eq_dec i r) as [->|]; [exact Hp|]. rewrite P3 by lia. apply (ff_one_neq_zero _ HF).
        + intros i j Hi Hj. destruct (Nat.eq_dec i r) as [->|]; [apply Hz; exact Hj|apply P4; lia].
        + intros i Hi.
          transitivity (sumn (S r) (fun l => fmul (V i l) (sumn (S r) (fun j => fmul (A l j) (x j))))).
          * rewrite (sumn_ext (S r) (fun l => fmul (V i l) (sumn (S r) (fun j => fmul (A l j) (x j))))
                      (fun l => sumn (S r) (fun j => fmul (fmul (V i l) (A l j)) (x j)))).
            2:{ intros l Hl. rewrite <- (sumn_mul_l HF). apply sumn_ext. intros; ring. }
            rewrite (sumn_swap HF). apply sumn_ext. intros j Hj. rewrite (sumn_mul_r HF). f_equal. symmetry.
            apply (leading_prod M V (S r) i j); try assumption; try lia. apply P1; lia.
          * apply (sumn_zero HF). intros l Hl. rewrite Hx by exact Hl. ring.
      - intros HN Hp.
        destruct (nonsingular_right_inverse HF (S r) A HN) as [C HC].
        assert (E : V r r = f0).
        { transitivity (sumn (S r) (fun j => fmul (V r j) (mat_id j r))).
          { symmetry. rewrite (sumn_single HF (S r) r); [unfold mat_id; rewrite Nat.eqb_refl; ring|lia|].
            intros i Hi Hne. unfold mat_id. destruct (Nat.eqb_spec i r); [contradiction|ring]. }
          transitivity (sumn (S r) (fun l => fmul (sumn (S r) (fun j => fmul (V r j) (A j l))) (C l r))).
          - rewrite (sumn_ext (S r) (fun l => fmul (sumn (S r) (fun j => fmul (V r j) (A j l))) (C l r))
                       (fun l => sumn (S r) (fun j => fmul (V r j) (fmul (A j l) (C l r))))).
            2:{ intros l Hl. rewrite <- (sumn_mul_r HF). apply sumn_ext. intros; ring. }
            rewrite (sumn_swap HF). apply sumn_ext. intros j Hj. rewrite (sumn_mul_l HF). f_equal.
            symmetry. apply (HC j r); lia.
          - apply (sumn_zero HF). intros l Hl.
            rewrite (leading_prod M V (S r) r l) by (assumption || lia || (apply P1; lia)).
            destruct (Nat.eq_dec l r) as [->|]; [rewrite Hp; ring|]. rewrite Hz by lia. ring. }
        apply (ff_one_neq_zero _ HF). rewrite <- (P5 r) by lia. exact E.
    Qed.

    Lemma scale_step r M V : r < n -> row_inv r r M V -> M r r <> f0 ->
      let e := finv (M r r) in
      down_inv (S r) (rowset M r (fun c => if c <? r then M r c else if c =? r then f1 else fmul (M r c) e))
                     (rowset V r (fun c => if c <=? r then fmul (V r c) e else V r c)).
    Proof.
      intros Hr [[P1 P2 P3 P4 P5 P6] Hz] Hp e.
      set (M' := rowset M r _). set (V' := rowset V r _).
      assert (Mr : forall c, c < n -> M' r c = fmul (M r c) e).
      { intros c Hc. unfold M', rowset. rewrite Nat.eqb_refl. destruct (Nat.ltb_spec c r) as [L|L].
        - rewrite Hz by exact L. ring.
        - destruct (Nat.eqb_spec c r) as [->|]; [|reflexivity]. symmetry. apply (finv_r HF). exact Hp. }
      assert (Vr : forall c, c < n -> V' r c = fmul (V r c) e).
      { intros c Hc. unfold V', rowset. rewrite Nat.eqb_refl. destruct (Nat.leb_spec c r) as [L|L]; [reflexivity|].
        rewrite (P2 r c) by lia. ring. }
      assert (Mo : forall i c, i <> r -> M' i c = M i c).
      { intros i c Hi. unfold M', rowset. destruct (Nat.eqb_spec i r); [contradiction|reflexivity]. }
      assert (Vo : forall i c, i <> r -> V' i c = V i c).
      { intros i c Hi. unfold V', rowset. destruct (Nat.eqb_spec i r); [contradiction|reflexivity]. }
      constructor.
      - intros i Hi l Hl. destruct (Nat.eq_dec i r) as [->|Ni].
        + rewrite Mr by exact Hl. rewrite <- (P1 r Hr l Hl), <- (sumn_mul_r HF). apply sumn_ext. intros k Hk.
          rewrite Vr by exact Hk. ring.
        + rewrite Mo by exact Ni. rewrite <- (P1 i Hi l Hl). apply sumn_ext. intros k Hk. rewrite Vo by exact Ni. reflexivity.
      - intros i k Hi Hk Hkn. destruct (Nat.eq_dec i r) as [->|Ni].
        + rewrite Vr by exact Hkn. rewrite (P2 r k) by lia. ring.
        + rewrite Vo by exact Ni. apply P2; assumption.
      - intros i Hi. destruct (Nat.eq_dec i r) as [->|Ni].
        + rewrite Mr by exact Hr. apply (finv_r HF). exact Hp.
        + rewrite Mo by exact Ni. apply P3; lia.
      - intros i j Hi Hj. destruct (Nat.eq_dec i r) as [->|Ni].
        + rewrite Mr by lia. rewrite Hz by exact Hj. ring.
        + rewrite Mo by exact Ni. apply P4; lia.
      - intros i Hi Hin. rewrite Vo by lia. apply P5; lia.
      - intros i Hi. destruct (Nat.eq_dec i r) as [->|Ni].
        + rewrite Vr by exact Hr. apply (fmul_neq_0 HF); [apply P6; exact Hr|apply (finv_neq_0 HF); exact Hp].
        + rewrite Vo by exact Ni. apply P6; exact Hi.
    Qed.

    Lemma mi_down_row_spec r M V : r < n -> down_inv r M V ->
      (nonsingular (S r) A /\ exists M' V', mi_down_row n r (mk_mat n n M, mk_mat n n V) = Ok (mk_mat n n M', mk_mat n n V') /\ down_inv (S r) M' V')
      \/ (~ nonsingular (S r) A /\ mi_down_row n r (mk_mat n n M, mk_mat n n V) = Panic).
    Proof.
      intros Hr HD. unfold mi_down_row.
      destruct (for_range_inv (fun j st => exists M' V', st = (mk_mat n n M', mk_mat n n V') /\ row_inv r j M' V')
                  0 r (mi_down_j n r) (mk_mat n n M, mk_mat n n V)) as [s [E [M' [V' [-> HR]]]]].
      - lia.
      - exists M, V. split; [reflexivity|]. constructor; [exact HD|]. intros; lia.
      - intros j s Hj [M1 [V1 [-> H1]]]. unfold mi_down_j. cbn [fst]. rewrite idx2_mk by lia. cbn [bind].
        rewrite mi_down_loop by lia. eexists. split; [reflexivity|]. eexists. eexists. split; [reflexivity|].
        apply row_step; [exact Hr|lia|exact H1].
      - rewrite E. cbn [bind fst]. rewrite idx2_mk by exact Hr. cbn [bind].
        pose proof (pivot_iff r M' V' Hr HR) as HP.
        destruct (feq_dec HF (M' r r) f0) as [Z|N].
        + right. split; [intros C; apply HP in C; contradiction|]. rewrite Z, (finverse_none HF). reflexivity.
        + left. split; [apply HP; exact N|]. rewrite (finverse_some HF) by exact N. cbn [unwrap bind].
          rewrite mi_scale_loop by exact Hr. eexists. eexists. split; [reflexivity|]. apply scale_step; assumption.
    Qed.
  End Phase1.

  (** ** Phase 2 *)
  Section Phase2.
    Context (n : nat) (A M0 : @mat F) (dbg : bool).

    Record up_inv (r : nat) (M V : @mat F) : Prop := {
      ui_done : forall i, r <= i -> i < n -> forall j, j < n -> sumn n (fun k => fmul (V i k) (A k j)) = mat_id i j;
      ui_todo : forall i, i < r -> forall j, j < n -> sumn n (fun k => fmul (V i k) (A k j)) = M0 i j;
      ui_m : forall i j, i < n -> j < n -> M i j = if dbg && (r <=? i) && (i <? j) then f0 else M0 i j
    }.
    Record up_row_inv (r c : nat) (M V : @mat F) : Prop := {
      uri_done : forall i, r < i -> i < n -> forall j, j < n -> sumn n (fun k => fmul (V i k) (A k j)) = mat_id i j;
      uri_todo : forall i, i < r -> forall j, j < n -> sumn n (fun k => fmul (V i k) (A k j)) = M0 i j;
      uri_cur : forall j, j < n -> sumn n (fun k => fmul (V r k) (A k j)) = if c <=? j then f0 else M0 r j;
      uri_m : forall i j, i < n -> j < n -> M i j = if dbg && (((r <? i) && (i <? j)) || ((i =? r) && (c <=? j))) then f0 else M0 i j
    }.

    Lemma up_step r j M V : r < n -> r < j -> j < n -> up_row_inv r (S j) M V ->
      M r j = M0 r j /\
      up_row_inv r j (rowset M r (fun c => if dbg && (j <=? c) then f0 else M r c))
                     (rowset V r (fun c => fsub (V r c) (fmul (V j c) (M r j)))).
    Proof.
      intros Hr Hj Hjn [P1 P2 P3 P4].
      assert (E : M r j = M0 r j).
      { rewrite P4 by lia. rewrite Nat.eqb_refl. destruct (Nat.ltb_spec r r); [lia|]. destruct (Nat.leb_spec (S j) j); [lia|].
        rewrite andb_comm. reflexivity. }
      split; [exact E|]. rewrite E.
      assert (Vo : forall i c g, i <> r -> rowset V r g i c = V i c).
      { intros i c g Hi. unfold rowset. destruct (Nat.eqb_spec i r); [contradiction|reflexivity]. }
      constructor.
      - intros i Hi Hin l Hl. rewrite <- (P1 i Hi Hin l Hl). apply sumn_ext. intros k Hk. rewrite Vo by lia. reflexivity.
      - intros i Hi l Hl. rewrite <- (P2 i Hi l Hl). apply sumn_ext. intros k Hk. rewrite Vo by lia. reflexivity.
      - intros l Hl.
        transitivity (fsub (sumn n (fun k => fmul (V r k) (A k l))) (fmul (sumn n (fun k => fmul (V j k) (A k l))) (M0 r j))).
        + rewrite <- (sumn_mul_r HF), <- (sumn_sub HF). apply sumn_ext. intros k Hk. unfold rowset. rewrite Nat.eqb_refl. ring.
        + rewrite P3, P1 by (assumption || lia). unfold mat_id.
          destruct (Nat.leb_spec (S j) l), (Nat.leb_spec j l), (Nat.eqb_spec j l); try lia; subst; ring.
      - intros i l Hi Hl. unfold rowset. destruct (Nat.eqb_spec i r) as [->|Ni].
        + rewrite P4 by assumption. rewrite Nat.eqb_refl. destruct (Nat.ltb_spec r r); [lia|].
          destruct (Nat.leb_spec (S j) l), (Nat.leb_spec j l); try lia; destruct dbg; reflexivity.
        + rewrite P4 by assumption. destruct (Nat.eqb_spec i r); [contradiction|]. reflexivity.
    Qed.

    Lemma mi_up_row_spec r M V : r < n -> (forall j, j < r -> M0 r j = f0) -> M0 r r = f1 -> up_inv (S r) M V ->
      exists M' V', mi_up_row dbg n r (mk_mat n n M, mk_mat n n V) = Ok (mk_mat n n M', mk_mat n n V') /\ up_inv r M' V'.
    Proof.
      intros Hr Hlow Hone [P1 P2 P3]. unfold mi_up_row. rewrite Nat.add_1_r.
      destruct (for_range_rev_inv (fun j st => exists M' V', st = (mk_mat n n M', mk_mat n n V') /\ up_row_inv r j M' V')
                  (S r) n (mi_up_j dbg n r) (mk_mat n n M, mk_mat n n V)) as [s [E [M' [V' [-> HR]]]]].
      - lia.
      - exists M, V. split; [reflexivity|]. constructor.
        + intros i Hi. apply P1. lia.
        + intros i Hi. apply P2. lia.
        + intros j Hj. rewrite P2 by lia. destruct (Nat.leb_spec n j); [lia|reflexivity].
        + intros i j Hi Hj. rewrite P3 by assumption. destruct (Nat.leb_spec n j); [lia|]. rewrite andb_false_r, orb_false_r.
          change (r <? i) with (S r <=? i). rewrite andb_assoc. reflexivity.
      - intros j s Hj [M1 [V1 [-> H1]]]. unfold mi_up_j. cbn [fst]. rewrite idx2_mk by lia. cbn [bind].
        rewrite mi_up_loop by lia. eexists. split; [reflexivity|]. eexists. eexists. split; [reflexivity|].
        apply up_step; [lia|lia|lia|exact H1].
      - exists M', V'. split; [exact E|]. destruct HR as [Q1 Q2 Q3 Q4]. constructor.
        + intros i Hi Hin j Hj. destruct (Nat.eq_dec i r) as [->|]; [|apply Q1; lia].
          rewrite Q3 by exact Hj. unfold mat_id. destruct (Nat.leb_spec (S r) j), (Nat.eqb_spec r j); try lia; try reflexivity.
          * subst. exact Hone.
          * apply Hlow. lia.
        + intros i Hi. apply Q2. exact Hi.
        + intros i j Hi Hj. rewrite Q4 by assumption.
          destruct dbg; cbn [andb]; [|reflexivity].
          destruct (Nat.ltb_spec r i), (Nat.ltb_spec i j), (Nat.eqb_spec i r), (Nat.leb_spec (S r) j), (Nat.leb_spec r i);
            cbn [andb orb]; try lia; reflexivity.
    Qed.
  End Phase2.

  Lemma debug_check_ok dbg n : mi_debug_check dbg (mk_mat n n mat_id) = Ok tt.
  Proof.
    unfold mi_debug_check. destruct dbg; [|reflexivity].
    assert (U : forall u : unit, u = tt) by (intros []; reflexivity).
    rewrite (for_list_enumerate []), mk_mat_length.
    destruct (for_range_inv (fun _ (_ : unit) => True) 0 n
      (fun row (_ : unit) => for_list (combine (seq 0 (length (nth row (mk_mat n n mat_id) []))) (nth row (mk_mat n n mat_id) []))
             (fun '(col, v) _ => if row =? col then debug_assert true (feqb v f1) else debug_assert true (feqb v f0)) tt) tt) as [[] [E _]];
      [lia|exact I| |exact E].
    intros row [] Hrow _. exists tt. split; [|exact I]. rewrite mk_mat_row by lia.
    rewrite (for_list_enumerate f0), map_length, seq_length.
    destruct (for_range_inv (fun _ (_ : unit) => True) 0 n
      (fun i (_ : unit) => if row =? i then debug_assert true (feqb (nth i (map (mat_id row) (seq 0 n)) f0) f1)
                           else debug_assert true (feqb (nth i (map (mat_id row) (seq 0 n)) f0) f0)) tt) as [[] [E _]];
      [lia|exact I| |exact E].
    intros i [] Hi _. exists tt. split; [|exact I]. rewrite nth_map_seq by lia. unfold mat_id.
    destruct (row =? i); rewrite (feqb_refl HF); reflexivity.
  Qed.

  Lemma nonsingular_ext k (A B : @mat F) : mat_eq k A B -> nonsingular k A -> nonsingular k B.
  Proof.
    intros E HN x Hx. apply HN. intros i Hi. rewrite <- (Hx i Hi). apply sumn_ext. intros j Hj. rewrite E by assumption. reflexivity.
  Qed.

  (** all leading principal blocks of orders 1..n are nonsingular *)
  Definition leading_nonsingular (n : nat) (A : @mat F) : Prop := forall k, 1 <= k <= n -> nonsingular k A.

  Theorem mat_inverse_spec dbg n m : 1 <= n -> dims n n m ->
    (leading_nonsingular n (entry m) /\
       exists B, mat_inverse dbg m = Ok (mk_mat n n B) /\ is_inverse n (entry m) B) \/
    (~ leading_nonsingular n (entry m) /\ mat_inverse dbg m = Panic).
  Proof.
    intros Hn Hd. set (A := entry m).
    destruct (dims_idx0 n n m Hd Hn) as [r0 [E0 L0]].
    unfold mat_inverse. rewrite E0. cbn [bind]. rewrite (proj1 Hd), L0, Nat.eqb_refl. cbn [assert bind].
    rewrite mi_identity_ok. cbn [bind].
    assert (EP : (m, mk_mat n n mat_id) = (mk_mat n n A, mk_mat n n mat_id)).
    { f_equal. apply mat_as_mk. exact Hd. }
    rewrite EP.
    assert (H0 : down_inv n A 0 A mat_id).
    { constructor; try (intros; lia).
      - intros i Hi j Hj. rewrite (sumn_single HF n i); [unfold mat_id; rewrite Nat.eqb_refl; ring|exact Hi|].
        intros k Hk Hne. unfold mat_id. destruct (Nat.eqb_spec i k); [congruence|ring].
      - intros i k Hi Hk Hkn. unfold mat_id. destruct (Nat.eqb_spec i k); [lia|reflexivity].
      - intros i _ _. unfold mat_id. rewrite Nat.eqb_refl. reflexivity.
      - intros i _. unfold mat_id. rewrite Nat.eqb_refl. apply (ff_one_neq_zero _ HF). }
    assert (PH : forall r, r <= n ->
       (leading_nonsingular r A /\ exists M V, for_range 0 r (mi_down_row n) (mk_mat n n A, mk_mat n n mat_id) = Ok (mk_mat n n M, mk_mat n n V) /\ down_inv n A r M V)
       \/ (~ leading_nonsingular r A /\ for_range 0 r (mi_down_row n) (mk_mat n n A, mk_mat n n mat_id) = Panic)).
    { induction r as [|r IH]; intros Hr.
      - left. split; [intros k Hk; lia|]. exists A, mat_id. split; [apply for_range_empty; lia|exact H0].
      - destruct IH as [[HL [M [V [E HI]]]]|[HN E]]; [lia| |].
        + rewrite for_range_last by lia. rewrite E. cbn [bind].
          destruct (mi_down_row_spec n A r M V ltac:(lia) HI) as [[HS [M' [V' [E' HI']]]]|[HS E']].
          * left. split; [|exists M', V'; auto]. intros k Hk. destruct (Nat.eq_dec k (S r)) as [->|]; [exact HS|apply HL; lia].
          * right. split; [intros C; apply HS, C; lia|exact E'].
        + right. split; [intros C; apply HN; intros k Hk; apply C; lia|]. rewrite for_range_last by lia. rewrite E. reflexivity. }
    destruct (PH n (le_n n)) as [[HL [M [V [E HI]]]]|[HN E]].
    - left. split; [exact HL|]. rewrite E. cbn [bind].
      destruct HI as [P1 P2 P3 P4 P5 P6].
      destruct (for_range_rev_inv (fun r st => exists M' V', st = (mk_mat n n M', mk_mat n n V') /\ up_inv n A M dbg r M' V')
                  0 n (mi_up_row dbg n) (mk_mat n n M, mk_mat n n V)) as [s [E' [M' [V' [-> HU]]]]].
      + lia.
      + exists M, V. split; [reflexivity|]. constructor.
        * intros; lia.
        * intros i Hi. apply P1. exact Hi.
        * intros i j Hi Hj. destruct (Nat.leb_spec n i); [lia|]. rewrite andb_false_r. reflexivity.
      + intros r s Hr [M1 [V1 [-> H1]]].
        destruct (mi_up_row_spec n A M dbg r M1 V1) as [M2 [V2 [E2 H2]]]; try assumption; try lia.
        * intros j Hj. apply P4; lia.
        * apply P3; lia.
        * eexists. split; [exact E2|]. exists M2, V2. auto.
      + rewrite E'. cbn [bind fst snd]. destruct HU as [U1 U2 U3].
        exists V'. split.
        * destruct dbg.
          -- rewrite (mk_mat_ext n n M' mat_id).
             ++ rewrite debug_check_ok. reflexivity.
             ++ intros i j Hi Hj. rewrite U3 by assumption. cbn [andb]. destruct (Nat.leb_spec 0 i); [|lia]. cbn [andb].
                unfold mat_id. destruct (Nat.ltb_spec i j), (Nat.eqb_spec i j); try lia; try reflexivity.
                ** subst. apply P3; lia.
                ** apply P4; lia.
          -- reflexivity.
        * apply (left_inverse_is_inverse HF). intros i j Hi Hj. unfold mat_mul. apply U1; lia.
    - right. split; [exact HN|]. rewrite E. reflexivity.
  Qed.
End MatInverse.

(** ** Consequences *)
Section MatInverseCor.
  Context {F : Type} {Fo : FOps F} (HF : is_field Fo).
  Add Ring FringMI2 : (ff_ring _ HF).

  Lemma mat_inverse_nil dbg : mat_inverse (F := F) dbg [] = Panic.
  Proof. reflexivity. Qed.

  Lemma is_inverse_ext n (A B B' : @mat F) : mat_eq n B B' -> is_inverse n A B -> is_inverse n A B'.
  Proof.
    intros E [H1 H2]. split; intros i j Hi Hj.
    - rewrite <- (H1 i j Hi Hj). unfold mat_mul. apply sumn_ext. intros k Hk. rewrite E by assumption. reflexivity.
    - rewrite <- (H2 i j Hi Hj). unfold mat_mul. apply sumn_ext. intros k Hk. rewrite E by assumption. reflexivity.
  Qed.

  Theorem mat_inverse_sound dbg n (m B : list (list F)) : dims n n m -> mat_inverse dbg m = Ok B ->
    dims n n B /\ is_inverse n (entry m) (entry B).
  Proof.
    intros Hd E. destruct n as [|n].
    - destruct m as [|r m]; [discriminate E|]. destruct Hd as [Hl _]. discriminate Hl.
    - destruct (mat_inverse_spec HF dbg (S n) m ltac:(lia) Hd) as [[_ [B' [E' H']]]|[_ E']].
      + rewrite E in E'. injection E' as ->. split; [apply mk_mat_dims|].
        apply (is_inverse_ext _ _ B'); [|exact H']. intros i j Hi Hj. symmetry. apply mk_mat_entry; assumption.
      + rewrite E in E'. discriminate E'.
  Qed.

  Theorem mat_inverse_success dbg n (m : list (list F)) : 1 <= n -> dims n n m ->
    ((exists B, mat_inverse dbg m = Ok B) <-> (forall k, 1 <= k <= n -> nonsingular k (entry m))) /\
    ((exists B, mat_inverse dbg m = Ok B) \/ mat_inverse dbg m = Panic).
  Proof.
    intros Hn Hd. destruct (mat_inverse_spec HF dbg n m Hn Hd) as [[HL [B [E _]]]|[HN E]].
    - split; [|left; exists (mk_mat n n B); exact E]. split; [intros _; exact HL|]. intros _. eexists; exact E.
    - split; [|right; exact E]. split; [intros [B C]; rewrite E in C; discriminate C|]. intros C. contradiction.
  Qed.

  Theorem mat_inverse_profiles n (m : list (list F)) : dims n n m -> mat_inverse true m = mat_inverse false m.
  Proof.
    intros Hd. destruct n as [|n].
    - destruct m as [|r m]; [reflexivity|]. destruct Hd as [Hl _]. discriminate Hl.
    - destruct (mat_inverse_spec HF true (S n) m ltac:(lia) Hd) as [[HL [B [E H]]]|[HN E]],
        (mat_inverse_spec HF false (S n) m ltac:(lia) Hd) as [[HL' [B' [E' H']]]|[HN' E']]; try contradiction.
      + rewrite E, E'. f_equal. apply mk_mat_ext. intros i j Hi Hj. exact (is_inverse_unique HF (S n) _ _ _ H H' i j Hi Hj).
      + rewrite E, E'. reflexivity.
  Qed.

  (** an invertible matrix that is not inverted: no row exchange is attempted *)
  Theorem mat_inverse_no_pivot : exists m : list (list F),
    dims 2 2 m /\ invertible 2 (entry m) /\ forall dbg, mat_inverse dbg m = Panic.
  Proof.
    exists [[f0; f1]; [f1; f0]]. split; [|split].
    - split; [reflexivity|]. intros i Hi. destruct i as [|[|]]; [reflexivity|reflexivity|lia].
    - exists (entry [[f0; f1]; [f1; f0]]). split; intros i j Hi Hj;
        (destruct i as [|[|]]; [| |lia]); (destruct j as [|[|]]; [| |lia]); unfold mat_mul, mat_id; cbn; ring.
    - intros dbg. unfold mat_inverse. cbn. rewrite (finverse_none HF). reflexivity.
  Qed.

  (** rows longer than the first one: the debug check looks at the surplus entries *)
  Theorem mat_inverse_ragged : exists m B : list (list F),
    mat_inverse false m = Ok B /\ mat_inverse true m = Panic.
  Proof.
    exists [[f1; f0]; [f0; f1; f1]], [[f1; f0]; [f0; f1]].
    assert (E : mat_inverse false [[f1; f0]; [f0; f1; f1]] = Ok [[f1; f0]; [f0; f1]] /\
                exists c, mat_inverse true [[f1; f0]; [f0; f1; f1]] = bind (mi_debug_check true [[f1; f0]; [f0; f1; f1]]) (fun _ => Ok c)).
    { assert (I1 : finverse (f1 : F) = Some (finv f1)) by (apply (finverse_some HF); apply (ff_one_neq_zero _ HF)).
      assert (V1 : finv f1 = (f1 : F)).
      { transitivity (fmul (finv f1) f1); [ring|]. apply (ff_inv _ HF). apply (ff_one_neq_zero _ HF). }
      assert (M1 : fsub (f1 : F) (fmul f0 f0) = f1) by ring.
      assert (M2 : fsub (f0 : F) (fmul f1 f0) = f0) by ring.
      assert (M3 : fmul (f1 : F) f1 = f1) by ring.
      assert (M4 : fmul (f0 : F) f1 = f0) by ring.
      assert (M5 : fmul (f0 : F) f0 = f0) by ring.
      assert (M6 : fsub (f0 : F) f0 = f0) by ring.
      assert (M7 : fsub (f1 : F) f0 = f1) by ring.
      assert (M8 : fmul (f1 : F) f0 = f0) by ring.
      split; [|eexists]; unfold mat_inverse; cbn -[mi_debug_check];
        repeat (first [rewrite I1|rewrite V1|rewrite M1|rewrite M2|rewrite M3|rewrite M4|rewrite M5|rewrite M8|rewrite M6|rewrite M7];
                cbn -[mi_debug_check]); reflexivity. }
    destruct E as [E1 [c E2]]. split; [exact E1|]. rewrite E2. cbn.
    rewrite !(feqb_refl HF). cbn. rewrite (feqb_neq HF) by apply (ff_one_neq_zero _ HF). reflexivity.
  Qed.
End MatInverseCor.
