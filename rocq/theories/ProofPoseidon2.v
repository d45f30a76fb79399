(** * ProofPoseidon2: the Poseidon2 model refines the reference; exact panic conditions. *)
From Verif Require Import Base Field Spec LinAlg LoopLemmas SpecPoseidon2 ModelUtils ModelPoseidon2.

Section P2.
  Context {F : Type} {Fo : FOps F} (HF : is_field Fo).
  Add Ring FringP2 : (ff_ring _ HF).

  Ltac fn := unfold fnat; cbn [sumn].

  (** ** x^d *)
  Lemma sbox_cases d (x : F) :
    (match d with
     | 3 => Ok (fmul (fsquare x) x)
     | 5 => Ok (fmul (fsquare (fsquare x)) x)
     | 7 => Ok (fmul (fmul (fsquare (fsquare x)) (fsquare x)) x)
     | _ => Panic
     end) = (if (d =? 3) || (d =? 5) || (d =? 7) then Ok (fpow x d) else Panic).
  Proof.
    do 8 (destruct d as [|d]; [try reflexivity; cbn [Nat.eqb orb fpow]; f_equal; unfold fsquare; ring|]).
    reflexivity.
  Qed.

  Lemma p2_sbox_p_eq P x :
    p2_sbox_p P x = if (p2_d P =? 3) || (p2_d P =? 5) || (p2_d P =? 7)
                    then Ok (fpow x (p2_d P)) else Panic.
  Proof. unfold p2_sbox_p. apply sbox_cases. Qed.

  Lemma degree_bool d : (d =? 3) || (d =? 5) || (d =? 7) = true <-> sbox_degree d.
  Proof.
    unfold sbox_degree. simpl. rewrite !orb_true_iff, !Nat.eqb_eq. intuition lia.
  Qed.

  Lemma degree_bool_false d : ~ sbox_degree d -> (d =? 3) || (d =? 5) || (d =? 7) = false.
  Proof.
    intros H. destruct ((d =? 3) || (d =? 5) || (d =? 7)) eqn:E; [|reflexivity].
    apply degree_bool in E. contradiction.
  Qed.

  Lemma p2_sbox_ok P x : sbox_degree (p2_d P) -> p2_sbox P x = Ok (map (fun a => fpow a (p2_d P)) x).
  Proof.
    intros Hd. unfold p2_sbox. apply mapM_ok. intros a _. rewrite p2_sbox_p_eq.
    apply degree_bool in Hd. rewrite Hd. reflexivity.
  Qed.

  Lemma p2_sbox_panic P x : ~ sbox_degree (p2_d P) -> x <> [] -> p2_sbox P x = Panic.
  Proof.
    intros Hd Hx. destruct x as [|a x]; [congruence|]. unfold p2_sbox. simpl.
    rewrite p2_sbox_p_eq, degree_bool_false by exact Hd. reflexivity.
  Qed.

  (** ** M4 *)
  Definition m4_out (i : nat) (x : list F) : F :=
    sumn 4 (fun j => fmul (M4 (i mod 4) j) (nth (4 * (i / 4) + j) x f0)).

  Lemma mod4 k r : r < 4 -> (4 * k + r) mod 4 = r.
  Proof. intros Hr. rewrite Nat.mul_comm, Nat.add_comm, Nat.mod_add by lia. apply Nat.mod_small; lia. Qed.
  Lemma div4 k r : r < 4 -> (4 * k + r) / 4 = k.
  Proof. intros Hr. rewrite Nat.mul_comm, Nat.add_comm, Nat.div_add by lia. rewrite Nat.div_small; lia. Qed.

  Lemma m4_loop t4 x :
    4 * t4 <= length x ->
    for_range 0 t4 p2_m4_body x =
    Ok (map (fun i => if i <? 4 * t4 then m4_out i x else nth i x f0) (seq 0 (length x))).
  Proof.
    intros Hlen.
    destruct (for_range_inv (fun k s => length s = length x /\
       forall i, i < length x -> nth i s f0 = if i <? 4 * k then m4_out i x else nth i x f0)
       0 t4 p2_m4_body x) as [s [E [Hl Hs]]].
    - lia.
    - split; [reflexivity|]. intros i Hi. reflexivity.
    - intros k s Hk [Hl Hs].
      assert (Hr : forall r, r < 4 -> nth (k * 4 + r) s f0 = nth (k * 4 + r) x f0).
      { intros r Hr. rewrite Hs by lia. destruct (Nat.ltb_spec (k * 4 + r) (4 * k)); [lia|reflexivity]. }
      unfold p2_m4_body.
      rewrite (idx_ok f0) by lia. cbn [bind].
      rewrite (idx_ok f0) by lia. cbn [bind].
      rewrite (idx_ok f0) by lia. cbn [bind].
      rewrite (idx_ok f0) by lia. cbn [bind].
      rewrite upd_ok by lia. cbn [bind].
      rewrite upd_ok by (rewrite !set_nth_length by (rewrite ?set_nth_length by lia; lia); lia). cbn [bind].
      rewrite upd_ok by (rewrite !set_nth_length by (rewrite ?set_nth_length by (rewrite ?set_nth_length by lia; lia); lia); lia). cbn [bind].
      rewrite upd_ok by (rewrite !set_nth_length by (rewrite ?set_nth_length by (rewrite ?set_nth_length by (rewrite ?set_nth_length by lia; lia); lia); lia); lia).
      eexists; split; [reflexivity|].
      assert (L1 : forall v, length (set_nth s (k * 4) v) = length x) by (intros; rewrite set_nth_length; lia).
      assert (L2 : forall v w, length (set_nth (set_nth s (k * 4) v) (k * 4 + 1) w) = length x)
        by (intros; rewrite set_nth_length; rewrite L1; lia).
      assert (L3 : forall v w u, length (set_nth (set_nth (set_nth s (k * 4) v) (k * 4 + 1) w) (k * 4 + 2) u) = length x)
        by (intros; rewrite set_nth_length; rewrite L2; lia).
      split; [rewrite set_nth_length; rewrite L3; lia|].
      intros i Hi.
      rewrite set_nth_nth by (rewrite L3; lia).
      rewrite set_nth_nth by (rewrite L2; lia).
      rewrite set_nth_nth by (rewrite L1; lia).
      rewrite set_nth_nth by lia.
      rewrite (Hr 1), (Hr 2), (Hr 3) by lia.
      pose proof (Hr 0 ltac:(lia)) as Hr0. rewrite Nat.add_0_r in Hr0. rewrite Hr0.
      assert (Hout : forall r, r < 4 -> m4_out (4 * k + r) x =
         sumn 4 (fun j => fmul (M4 r j) (nth (k * 4 + j) x f0))).
      { intros r Hr'. unfold m4_out. rewrite mod4, div4 by exact Hr'.
        apply (sumn_ext 4). intros j _. rewrite (Nat.mul_comm 4 k). reflexivity. }
      destruct (Nat.ltb_spec i (4 * S k)) as [L|L].
      + destruct (Nat.lt_ge_cases i (4 * k)) as [L'|L'].
        * do 4 (match goal with |- context [if i =? ?e then _ else _] => destruct (Nat.eqb_spec i e); [lia|] end).
          rewrite Hs by exact Hi. destruct (Nat.ltb_spec i (4 * k)); [reflexivity|lia].
        * assert (Hc : i = 4 * k + 3 \/ i = 4 * k + 2 \/ i = 4 * k + 1 \/ i = 4 * k + 0) by lia.
          destruct Hc as [-> | [-> | [-> | ->]]]; rewrite Hout by lia;
            repeat match goal with |- context [?a =? ?b] =>
              destruct (Nat.eqb_spec a b); [try lia | try lia] end;
            unfold M4; cbn [sumn nth]; fn; unfold fdouble; rewrite ?Nat.add_0_r; ring.
      + do 4 (match goal with |- context [if i =? ?e then _ else _] => destruct (Nat.eqb_spec i e); [lia|] end).
        rewrite Hs by exact Hi. destruct (Nat.ltb_spec i (4 * k)); [lia|reflexivity].
    - rewrite E. f_equal. apply (list_ext f0).
      + rewrite map_length, seq_length. exact Hl.
      + intros i Hi. rewrite nth_map_seq by lia. apply Hs. lia.
  Qed.

  Lemma m4_loop_panic t4 x : length x < 4 * t4 -> for_range 0 t4 p2_m4_body x = Panic.
  Proof.
    intros H. set (g := length x / 4).
    assert (Hg : 4 * g <= length x < 4 * g + 4).
    { unfold g. pose proof (Nat.div_mod (length x) 4 ltac:(lia)).
      pose proof (Nat.mod_upper_bound (length x) 4 ltac:(lia)). lia. }
    eapply (for_range_panic 0 g t4); [lia | apply m4_loop; lia |].
    set (y := map _ _). assert (Hy : length y = length x) by (unfold y; rewrite map_length, seq_length; reflexivity).
    unfold p2_m4_body.
    destruct (idx_cases y (g * 4)) as [[a [-> _]]|[-> _]]; cbn [bind]; [|reflexivity].
    destruct (idx_cases y (g * 4 + 1)) as [[b [-> _]]|[-> _]]; cbn [bind]; [|reflexivity].
    destruct (idx_cases y (g * 4 + 2)) as [[c [-> _]]|[-> _]]; cbn [bind]; [|reflexivity].
    rewrite idx_panic by lia. reflexivity.
  Qed.

  (** ** External layer *)
  Lemma sumn_blocks m (f : nat -> F) :
    sumn (4 * m) f = sumn m (fun g => sumn 4 (fun r => f (4 * g + r))).
  Proof.
    induction m as [|m IH]; [reflexivity|].
    replace (4 * S m) with (4 * m + 4) by lia. rewrite (sumn_split HF), IH. reflexivity.
  Qed.

  Lemma p2_stored_ok t4 x :
    1 <= t4 -> length x = 4 * t4 ->
    p2_stored t4 x = Ok (map (fun l => sumn t4 (fun g => nth (4 * g + l) x f0)) (seq 0 4)).
  Proof.
    intros Ht Hl. unfold p2_stored.
    apply (for_range_rows 4 t4 (fun l g => nth (4 * g + l) x f0)).
    intros l s Hl4 Hs _. rewrite (idx_ok f0) by lia. cbn [bind].
    rewrite upd_ok by lia. cbn [bind].
    rewrite (for_range_acc HF l 1 t4 (fun j => nth (4 * j + l) x f0)).
    - f_equal. apply (list_ext f0).
      + rewrite !set_nth_length; rewrite ?set_nth_length; lia.
      + intros i Hi. rewrite !set_nth_length in Hi by (rewrite ?set_nth_length; lia).
        rewrite !set_nth_nth by (rewrite ?set_nth_length; lia).
        destruct (Nat.eqb_spec i l) as [->|]; [|reflexivity].
        rewrite Nat.eqb_refl. destruct t4 as [|t4]; [lia|].
        rewrite (sumn_first HF t4). replace (S t4 - 1) with t4 by lia. reflexivity.
    - lia.
    - rewrite set_nth_length; lia.
    - intros i s' Hi Hs' _. rewrite set_nth_length in Hs' by lia.
      rewrite (idx_ok f0) by lia. cbn [bind].
      rewrite (idx_ok f0) by nia. cbn [bind]. reflexivity.
  Qed.

  Definition p2_big (t : nat) : Prop := In t [8; 12; 16; 20; 24].

  Lemma p2_big_4 t : p2_big t -> t = 4 * (t / 4) /\ 2 <= t / 4 /\ 4 < t.
  Proof.
    unfold p2_big; simpl; intros H.
    repeat (destruct H as [<-|H]; [repeat split; try reflexivity; cbn; lia|]). contradiction.
  Qed.

  Lemma p2_external_big_ok P x :
    p2_big (p2_t P) -> length x = p2_t P ->
    p2_external_big P x = Ok (mat_apply (p2_t P) (p2_t P) (ext_matrix (p2_t P)) x).
  Proof.
    intros Ht Hx. destruct (p2_big_4 _ Ht) as [Ht4 [Ht2 Htg]].
    set (t := p2_t P) in *. set (t4 := t / 4) in *.
    unfold p2_external_big, p2_matmul_m4. fold t. fold t4.
    rewrite m4_loop by lia. cbn [bind].
    set (y := map _ _). assert (Hy : length y = t) by (unfold y; rewrite map_length, seq_length; lia).
    assert (Hyn : forall i, i < t -> nth i y f0 = m4_out i x).
    { intros i Hi. unfold y. rewrite nth_map_seq by lia.
      destruct (Nat.ltb_spec i (4 * t4)); [reflexivity|lia]. }
    rewrite p2_stored_ok by lia. cbn [bind].
    set (st := map _ (seq 0 4)).
    rewrite (for_range_map f0 (fun i a => fadd a (sumn t4 (fun g => nth (4 * g + i mod 4) y f0)))).
    - rewrite Hy. f_equal. unfold mat_apply. apply map_seq_ext. intros i Hi.
      assert (Hm : i mod 4 < 4) by (apply Nat.mod_upper_bound; lia).
      assert (Hd : i / 4 < t4) by (apply Nat.div_lt_upper_bound; lia).
      set (Y := fun g => sumn 4 (fun r => fmul (M4 (i mod 4) r) (nth (4 * g + r) x f0))).
      assert (HY : forall g, g < t4 -> nth (4 * g + i mod 4) y f0 = Y g).
      { intros g Hg. rewrite Hyn by lia. unfold m4_out. rewrite mod4, div4 by exact Hm. reflexivity. }
      rewrite (sumn_ext t4 _ Y) by (intros g Hg; apply HY; exact Hg).
      rewrite Hyn by exact Hi. change (m4_out i x) with (Y (i / 4)).
      rewrite Ht4 at 1. rewrite sumn_blocks.
      symmetry.
      etransitivity; [apply (sumn_ext t4 _ (fun g => fadd (fmul (if i / 4 =? g then f1 else f0) (Y g)) (Y g)))|].
      2:{ rewrite (sumn_add HF), (sumn_delta HF t4 (i / 4) Y) by exact Hd. reflexivity. }
      + intros g Hg. unfold ext_matrix.
        assert (E1 : t <? 4 = false) by (apply Nat.ltb_ge; lia).
        assert (E2 : t =? 4 = false) by (apply Nat.eqb_neq; lia).
        rewrite E1, E2. unfold Y.
        rewrite (sumn_ext 4 _ (fun r => fmul (fnat (if i / 4 =? g then 2 else 1))
                    (fmul (M4 (i mod 4) r) (nth (4 * g + r) x f0)))).
        2:{ intros r Hr. rewrite mod4, div4 by exact Hr. ring. }
        rewrite (sumn_mul_l HF). destruct (i / 4 =? g); fn; ring.
    - intros i s Hi Hs Hn. rewrite (idx_ok f0) by lia. cbn [bind].
      assert (Hm : i mod 4 < 4) by (apply Nat.mod_upper_bound; lia).
      rewrite (idx_ok f0) by (unfold st; rewrite map_length, seq_length; exact Hm). cbn [bind].
      unfold st. rewrite nth_map_seq by exact Hm. reflexivity.
  Qed.

  Lemma p2_external_big_panic P x :
    p2_big (p2_t P) -> length x < p2_t P -> p2_external_big P x = Panic.
  Proof.
    intros Ht Hx. destruct (p2_big_4 _ Ht) as [Ht4 [Ht2 Htg]].
    unfold p2_external_big, p2_matmul_m4. rewrite m4_loop_panic by lia. reflexivity.
  Qed.

  Lemma list2 {A} (x : list A) : length x = 2 -> exists a b, x = [a; b].
  Proof. destruct x as [|a [|b [|c x]]]; simpl; try lia. eauto. Qed.
  Lemma list3 {A} (x : list A) : length x = 3 -> exists a b c, x = [a; b; c].
  Proof. destruct x as [|a [|b [|c [|e x]]]]; simpl; try lia. eauto. Qed.

  Lemma p2_width_cases t :
    p2_width t -> t = 2 \/ t = 3 \/ t = 4 \/ p2_big t.
  Proof. unfold p2_width, p2_big. simpl. intuition auto. Qed.

  Lemma p2_ext_match_big t (a b c e z : res (list F)) :
    p2_big t ->
    match t with 2 => a | 3 => b | 4 => c | 8 | 12 | 16 | 20 | 24 => e | _ => z end = e.
  Proof. unfold p2_big; simpl; intros H. repeat (destruct H as [<-|H]; [reflexivity|]). contradiction. Qed.

  Lemma p2_matmul_external_ok P x :
    p2_width (p2_t P) -> length x = p2_t P ->
    p2_matmul_external P x = Ok (mat_apply (p2_t P) (p2_t P) (ext_matrix (p2_t P)) x).
  Proof.
    intros Hw Hx. unfold p2_matmul_external.
    destruct (p2_width_cases _ Hw) as [E|[E|[E|Hb]]].
    - rewrite E in *. apply list2 in Hx. destruct Hx as [a [b ->]].
      cbn -[fnat]. f_equal. unfold mat_apply, ext_matrix. cbn -[fnat]. fn.
      repeat (apply (f_equal2 cons); [ring|]). reflexivity.
    - rewrite E in *. apply list3 in Hx. destruct Hx as [a [b [c ->]]].
      cbn -[fnat]. f_equal. unfold mat_apply, ext_matrix. cbn -[fnat]. fn.
      repeat (apply (f_equal2 cons); [ring|]). reflexivity.
    - rewrite E in *. unfold p2_matmul_m4. rewrite E. change (4 / 4) with 1.
      rewrite m4_loop by lia. f_equal. rewrite Hx. unfold mat_apply. apply map_seq_ext.
      intros i Hi. destruct (Nat.ltb_spec i (4 * 1)); [|lia].
      unfold m4_out. rewrite Nat.mod_small, Nat.div_small by lia.
      apply (sumn_ext 4). intros j Hj. reflexivity.
    - rewrite p2_ext_match_big by exact Hb. apply p2_external_big_ok; assumption.
  Qed.

  Lemma p2_matmul_external_short P x :
    p2_width (p2_t P) -> length x < p2_t P -> p2_matmul_external P x = Panic.
  Proof.
    intros Hw Hx. unfold p2_matmul_external.
    destruct (p2_width_cases _ Hw) as [E|[E|[E|Hb]]].
    - rewrite E in *. destruct x as [|a [|b x]]; try reflexivity. simpl in Hx; lia.
    - rewrite E in *. destruct x as [|a [|b [|c x]]]; try reflexivity. simpl in Hx; lia.
    - rewrite E in *. unfold p2_matmul_m4. rewrite E. apply m4_loop_panic. change (4 / 4) with 1. lia.
    - rewrite p2_ext_match_big by exact Hb. apply p2_external_big_panic; assumption.
  Qed.

  Lemma p2_width_dec t : {p2_width t} + {~ p2_width t}.
  Proof. unfold p2_width. apply in_dec, Nat.eq_dec. Qed.
  Lemma sbox_degree_dec d : {sbox_degree d} + {~ sbox_degree d}.
  Proof. unfold sbox_degree. apply in_dec, Nat.eq_dec. Qed.

  Lemma p2_matmul_external_width P x : ~ p2_width (p2_t P) -> p2_matmul_external P x = Panic.
  Proof.
    intros Hw. unfold p2_matmul_external. unfold p2_width in Hw. simpl in Hw.
    destruct (p2_t P) as [|n]; [reflexivity|].
    do 24 (destruct n as [|n]; [first [reflexivity | exfalso; apply Hw; tauto]|]).
    reflexivity.
  Qed.

  (** ** Internal layer *)
  Definition p2_ge4 (t : nat) : Prop := In t [4; 8; 12; 16; 20; 24].

  Lemma p2_width_cases4 t : p2_width t -> t = 2 \/ t = 3 \/ p2_ge4 t.
  Proof. unfold p2_width, p2_ge4. simpl. intuition auto. Qed.

  Lemma p2_ge4_le t : p2_ge4 t -> 4 <= t.
  Proof. unfold p2_ge4; simpl; intuition lia. Qed.

  Lemma p2_int_match_ge4 t (a b c z : res (list F)) :
    p2_ge4 t ->
    match t with 2 => a | 3 => b | 4 | 8 | 12 | 16 | 20 | 24 => c | _ => z end = c.
  Proof. unfold p2_ge4; simpl; intros H. repeat (destruct H as [<-|H]; [reflexivity|]). contradiction. Qed.

  Lemma p2_internal_big_ok P x diag :
    4 <= p2_t P -> length x = p2_t P -> p2_t P <= length diag ->
    p2_internal_big P x diag = Ok (mat_apply (p2_t P) (p2_t P) (int_matrix (p2_t P) diag) x).
  Proof.
    intros Ht Hx Hdg. unfold p2_internal_big. set (t := p2_t P) in *.
    destruct x as [|x0 x']; [simpl in Hx; lia|].
    change (idx (x0 :: x') 0) with (Ok x0). cbn [bind].
    change (skipn 1 (x0 :: x')) with x'. rewrite firstn_all2 by (simpl in Hx; lia).
    rewrite (fold_left_fadd HF).
    set (S := fadd x0 _).
    assert (HS : S = sumn t (fun j => nth j (x0 :: x') f0)).
    { unfold S. rewrite <- Hx. simpl length. rewrite (sumn_first HF). reflexivity. }
    rewrite (for_range_map f0 (fun i a => fadd (fmul a (nth i diag f0)) S)).
    - rewrite Hx. f_equal. unfold mat_apply. apply map_seq_ext. intros i Hi.
      unfold int_matrix. assert (E1 : t <? 4 = false) by (apply Nat.ltb_ge; lia). rewrite E1.
      symmetry.
      etransitivity; [apply (sumn_ext t _ (fun j => fadd (fmul (if i =? j then f1 else f0)
                     (fmul (nth i diag f0) (nth j (x0 :: x') f0))) (nth j (x0 :: x') f0)))|].
      + intros j Hj. destruct (i =? j); ring.
      + rewrite (sumn_add HF), (sumn_delta HF t i (fun j => fmul (nth i diag f0) (nth j (x0 :: x') f0)))
          by exact Hi. rewrite <- HS. ring.
    - intros i s Hi Hs Hn. rewrite (idx_ok f0) by lia. cbn [bind].
      rewrite (idx_ok f0) by lia. cbn [bind]. reflexivity.
  Qed.

  Lemma p2_internal_big_panic P x diag :
    4 <= p2_t P -> length x = p2_t P -> length diag < p2_t P ->
    p2_internal_big P x diag = Panic.
  Proof.
    intros Ht Hx Hdg. unfold p2_internal_big. rewrite (idx_ok f0) by lia. cbn [bind].
    set (S := fold_left _ _ _).
    eapply (for_range_panic 0 (length diag)); [lia| |].
    - rewrite (for_range_inplace f0 (fun i a => fadd (fmul a (nth i diag f0)) S)).
      + reflexivity.
      + lia.
      + lia.
      + intros i s Hi Hs Hn. rewrite (idx_ok f0) by lia. cbn [bind].
        rewrite (idx_ok f0) by lia. cbn [bind]. reflexivity.
    - rewrite (idx_ok f0) by (rewrite map_length, seq_length; lia). cbn [bind].
      rewrite idx_panic by lia. reflexivity.
  Qed.

  Lemma p2_matmul_internal_ok P x diag :
    p2_width (p2_t P) -> length x = p2_t P -> (4 <= p2_t P -> p2_t P <= length diag) ->
    p2_matmul_internal P x diag = Ok (mat_apply (p2_t P) (p2_t P) (int_matrix (p2_t P) diag) x).
  Proof.
    intros Hw Hx Hdg. unfold p2_matmul_internal.
    destruct (p2_width_cases4 _ Hw) as [E|[E|Hb]].
    - rewrite E in *. apply list2 in Hx. destruct Hx as [a [b ->]].
      cbn -[fnat]. f_equal. unfold mat_apply, int_matrix. cbn -[fnat]. fn. unfold fdouble.
      repeat (apply (f_equal2 cons); [ring|]). reflexivity.
    - rewrite E in *. apply list3 in Hx. destruct Hx as [a [b [c ->]]].
      cbn -[fnat]. f_equal. unfold mat_apply, int_matrix. cbn -[fnat]. fn. unfold fdouble.
      repeat (apply (f_equal2 cons); [ring|]). reflexivity.
    - rewrite p2_int_match_ge4 by exact Hb. apply p2_ge4_le in Hb.
      apply p2_internal_big_ok; auto.
  Qed.

  Lemma p2_matmul_internal_short P x diag :
    p2_width (p2_t P) -> length x = p2_t P -> 4 <= p2_t P -> length diag < p2_t P ->
    p2_matmul_internal P x diag = Panic.
  Proof.
    intros Hw Hx Ht Hdg. unfold p2_matmul_internal.
    destruct (p2_width_cases4 _ Hw) as [E|[E|Hb]]; try lia.
    rewrite p2_int_match_ge4 by exact Hb. apply p2_internal_big_panic; auto.
  Qed.

  (** ** Rounds *)
  Lemma add_rc_length x c : length (add_rc x c) = Nat.min (length x) (length c).
  Proof. unfold add_rc. rewrite map_length, combine_length. reflexivity. Qed.

  Lemma add_rc_nth x c i : i < length x -> i < length c ->
    nth i (add_rc x c) f0 = fadd (nth i x f0) (nth i c f0).
  Proof.
    revert c i; induction x as [|a x IH]; intros c i Hx Hc; [simpl in Hx; lia|].
    destruct c as [|b c]; [simpl in Hc; lia|]. destruct i as [|i]; [reflexivity|].
    simpl in *. apply IH; lia.
  Qed.

  Lemma add_rc_ok x c t : length x = t -> t <= length c ->
    add_rc x c = map (fun i => fadd (nth i x f0) (nth i c f0)) (seq 0 t).
  Proof.
    intros Hx Hc. apply (list_ext f0).
    - rewrite add_rc_length, map_length, seq_length. lia.
    - intros i Hi. rewrite add_rc_length in Hi. rewrite nth_map_seq by lia. apply add_rc_nth; lia.
  Qed.

  Lemma nth_nil_len {A} (l : list (list A)) r k : 1 <= k -> k <= length (nth r l []) -> r < length l.
  Proof.
    intros Hk H. destruct (Nat.lt_ge_cases r (length l)) as [L|L]; [exact L|].
    rewrite nth_overflow in H by exact L. simpl in H. lia.
  Qed.

  Lemma p2_width_pos t : p2_width t -> 2 <= t.
  Proof. unfold p2_width; simpl; intuition lia. Qed.

  Lemma p2_full_round_ok P r st :
    p2_width (p2_t P) -> sbox_degree (p2_d P) -> length st = p2_t P ->
    p2_t P <= length (nth r (p2_rc P) []) ->
    p2_full_round P r st = Ok (p2_ref_full (p2_t P) (p2_d P) (nth r (p2_rc P) []) st).
  Proof.
    intros Hw Hd Hs Hr. pose proof (p2_width_pos _ Hw) as Hp. unfold p2_full_round.
    rewrite (idx_ok []) by (apply (nth_nil_len _ _ (p2_t P)); lia). cbn [bind].
    rewrite p2_sbox_ok by exact Hd. cbn [bind].
    rewrite p2_matmul_external_ok; [|exact Hw|rewrite map_length, add_rc_length; lia].
    f_equal. unfold p2_ref_full. f_equal.
    rewrite (add_rc_ok _ _ (p2_t P)) by assumption. rewrite map_map. reflexivity.
  Qed.

  Lemma p2_full_round_panic P r st :
    p2_width (p2_t P) -> length st = p2_t P ->
    ~ (sbox_degree (p2_d P) /\ p2_t P <= length (nth r (p2_rc P) [])) ->
    p2_full_round P r st = Panic.
  Proof.
    intros Hw Hs Hno. pose proof (p2_width_pos _ Hw) as Hp. unfold p2_full_round.
    destruct (Nat.lt_ge_cases r (length (p2_rc P))) as [L|L]; [|rewrite idx_panic by exact L; reflexivity].
    rewrite (idx_ok []) by exact L. cbn [bind].
    destruct (sbox_degree_dec (p2_d P)) as [Hd|Hd].
    - rewrite p2_sbox_ok by exact Hd. cbn [bind].
      apply p2_matmul_external_short; [exact Hw|]. rewrite map_length, add_rc_length.
      assert (~ p2_t P <= length (nth r (p2_rc P) [])) by tauto. lia.
    - destruct (nth r (p2_rc P) []) as [|c cs] eqn:Ec.
      + replace (add_rc st []) with (@nil F) by (destruct st; reflexivity).
        cbn. apply p2_matmul_external_short; [exact Hw | simpl; lia].
      + rewrite p2_sbox_panic; [reflexivity|exact Hd|].
        destruct st as [|s0 st]; [simpl in Hs; lia|]. discriminate.
  Qed.

  Lemma p2_ref_full_length t d c x : length (p2_ref_full t d c x) = t.
  Proof. apply mat_apply_length. Qed.
  Lemma p2_ref_partial_length t d m c x : length (p2_ref_partial t d m c x) = t.
  Proof. apply mat_apply_length. Qed.

  Lemma p2_partial_round_ok P r st :
    p2_width (p2_t P) -> sbox_degree (p2_d P) -> length st = p2_t P ->
    1 <= length (nth r (p2_rc P) []) -> (4 <= p2_t P -> p2_t P <= length (p2_diag P)) ->
    p2_partial_round P r st = Ok (p2_ref_partial (p2_t P) (p2_d P) (p2_diag P) (nth r (p2_rc P) []) st).
  Proof.
    intros Hw Hd Hs Hr Hdg. pose proof (p2_width_pos _ Hw) as Hp. unfold p2_partial_round.
    rewrite (idx_ok f0) by lia. cbn [bind].
    unfold idx2. rewrite (idx_ok []) by (apply (nth_nil_len _ _ 1); lia). cbn [bind].
    rewrite (idx_ok f0) by lia. cbn [bind].
    rewrite upd_ok by lia. cbn [bind].
    rewrite (idx_ok f0) by (rewrite set_nth_length; lia). cbn [bind].
    rewrite p2_sbox_p_eq. pose proof (proj2 (degree_bool _) Hd) as Hb. rewrite Hb. cbn [bind].
    rewrite upd_ok by (rewrite set_nth_length; lia). cbn [bind].
    rewrite p2_matmul_internal_ok; [|exact Hw|rewrite !set_nth_length; rewrite ?set_nth_length; lia|exact Hdg].
    f_equal. unfold p2_ref_partial. f_equal. apply (list_ext f0).
    - rewrite !set_nth_length by (rewrite ?set_nth_length; lia). rewrite map_length, seq_length. exact Hs.
    - intros i Hi. rewrite !set_nth_length in Hi by (rewrite ?set_nth_length; lia).
      rewrite nth_map_seq by lia. rewrite !set_nth_nth by (rewrite ?set_nth_length; lia).
      destruct (Nat.eqb_spec i 0) as [->|Hn]; [|reflexivity]. simpl. reflexivity.
  Qed.

  Lemma p2_partial_round_panic P r st :
    p2_width (p2_t P) -> length st = p2_t P ->
    ~ (sbox_degree (p2_d P) /\ 1 <= length (nth r (p2_rc P) []) /\
       (4 <= p2_t P -> p2_t P <= length (p2_diag P))) ->
    p2_partial_round P r st = Panic.
  Proof.
    intros Hw Hs Hno. pose proof (p2_width_pos _ Hw) as Hp. unfold p2_partial_round.
    rewrite (idx_ok f0) by lia. cbn [bind]. unfold idx2.
    destruct (Nat.lt_ge_cases r (length (p2_rc P))) as [L|L]; [|rewrite idx_panic by exact L; reflexivity].
    rewrite (idx_ok []) by exact L. cbn [bind].
    destruct (Nat.lt_ge_cases 0 (length (nth r (p2_rc P) []))) as [L1|L1];
      [|rewrite idx_panic by exact L1; reflexivity].
    rewrite (idx_ok f0) by exact L1. cbn [bind].
    rewrite upd_ok by lia. cbn [bind].
    rewrite (idx_ok f0) by (rewrite set_nth_length; lia). cbn [bind].
    rewrite p2_sbox_p_eq.
    destruct (sbox_degree_dec (p2_d P)) as [Hd|Hd].
    - pose proof (proj2 (degree_bool _) Hd) as Hb. rewrite Hb. cbn [bind].
      rewrite upd_ok by (rewrite set_nth_length; lia). cbn [bind].
      assert (Hg : ~ (4 <= p2_t P -> p2_t P <= length (p2_diag P))) by tauto.
      assert (4 <= p2_t P) by (destruct (le_lt_dec 4 (p2_t P)); [assumption|exfalso; apply Hg; lia]).
      apply p2_matmul_internal_short; [exact Hw| |assumption|].
      + rewrite !set_nth_length; rewrite ?set_nth_length; lia.
      + destruct (le_lt_dec (p2_t P) (length (p2_diag P))); [exfalso; apply Hg; auto|assumption].
    - rewrite degree_bool_false by exact Hd. reflexivity.
  Qed.

  (** ** Constructor *)
  Lemma p2_new_ok dbg t d rf rp (diag : list F) (mi rc : list (list F)) P :
    p2_new dbg t d rf rp diag mi rc = Ok P ->
    (N.of_nat rf + N.of_nat rp < usize_mod)%N ->
    (sbox_degree d \/ d = 11) /\ rf mod 2 = 0 /\
    P = {| p2_t := t; p2_d := d; p2_rounds_f_beginning := rf / 2; p2_rounds_p := rp;
           p2_rounds_f_end := rf / 2; p2_rounds := rf + rp; p2_diag := diag;
           p2_mat_internal := mi; p2_rc := rc |}.
  Proof.
    intros H Hb. unfold p2_new in H.
    destruct ((d =? 3) || (d =? 5) || (d =? 7) || (d =? 11)) eqn:Ed; [|discriminate].
    cbn [assert bind] in H.
    destruct (rf mod 2 =? 0) eqn:Er; [|discriminate]. cbn [assert bind] in H.
    rewrite uadd_ok in H by exact Hb. cbn [bind] in H. inversion H; subst.
    split; [|split; [apply Nat.eqb_eq; exact Er|reflexivity]].
    unfold sbox_degree. simpl. rewrite !orb_true_iff, !Nat.eqb_eq in Ed. intuition lia.
  Qed.

  Lemma p2_new_total dbg t d rf rp (diag : list F) (mi rc : list (list F)) :
    (sbox_degree d \/ d = 11) -> rf mod 2 = 0 -> (N.of_nat rf + N.of_nat rp < usize_mod)%N ->
    p2_new dbg t d rf rp diag mi rc =
    Ok {| p2_t := t; p2_d := d; p2_rounds_f_beginning := rf / 2; p2_rounds_p := rp;
           p2_rounds_f_end := rf / 2; p2_rounds := rf + rp; p2_diag := diag;
           p2_mat_internal := mi; p2_rc := rc |}.
  Proof.
    intros Hd Hr Hb. unfold p2_new.
    replace ((d =? 3) || (d =? 5) || (d =? 7) || (d =? 11)) with true.
    2:{ symmetry. rewrite !orb_true_iff, !Nat.eqb_eq. unfold sbox_degree in Hd. simpl in Hd. intuition lia. }
    cbn [assert bind]. rewrite Hr. cbn [Nat.eqb assert bind].
    rewrite uadd_ok by exact Hb. reflexivity.
  Qed.

  Lemma p2_new_panic dbg t d rf rp (diag : list F) (mi rc : list (list F)) :
    ~ ((sbox_degree d \/ d = 11) /\ rf mod 2 = 0) ->
    p2_new dbg t d rf rp diag mi rc = Panic.
  Proof.
    intros Hn. unfold p2_new.
    destruct ((d =? 3) || (d =? 5) || (d =? 7) || (d =? 11)) eqn:Ed; [|reflexivity]. cbn [assert bind].
    destruct (rf mod 2 =? 0) eqn:Er; [|reflexivity]. exfalso. apply Hn.
    apply Nat.eqb_eq in Er. split; [|exact Er].
    rewrite !orb_true_iff, !Nat.eqb_eq in Ed. unfold sbox_degree. simpl. intuition lia.
  Qed.

  (** ** The permutation *)
  Lemma even_half rf : rf mod 2 = 0 -> rf = rf / 2 + rf / 2.
  Proof. intros H. pose proof (Nat.div_mod rf 2 ltac:(lia)). lia. Qed.

  Theorem p2_permutation_ref dbg t d rf rp (diag : list F) (mi rc : list (list F)) P x :
    p2_new dbg t d rf rp diag mi rc = Ok P ->
    (N.of_nat rf + N.of_nat rp < usize_mod)%N ->
    p2_width t -> sbox_degree d -> p2_data_ok t rf rp diag rc -> length x = t ->
    p2_permutation dbg P x = Ok (p2_ref t d rf rp diag rc x).
  Proof.
    intros Hnew Hb Hw Hd [Hfull [Hpart Hdiag]] Hx.
    destruct (p2_new_ok _ _ _ _ _ _ _ _ _ Hnew Hb) as [_ [Hev ->]].
    pose proof (even_half rf Hev) as Hh.
    unfold p2_permutation. cbn [p2_t p2_rounds_f_beginning p2_rounds_p p2_rounds].
    rewrite Hx, Nat.eqb_refl. cbn [assert bind].
    set (P := {| p2_t := t |}).
    rewrite (p2_matmul_external_ok P x Hw Hx). cbn [bind]. cbn [p2_t P].
    set (s0 := mat_apply t t (ext_matrix t) x).
    assert (L0 : length s0 = t) by apply mat_apply_length.
    destruct (for_range_fold (fun s r => p2_ref_full t d (nth r rc []) s) (fun s => length s = t)
                0 (rf / 2) (p2_full_round P) s0 L0) as [E1 L1].
    { intros r s Hr Hs. split; [|apply p2_ref_full_length].
      apply (p2_full_round_ok P); try assumption. apply Hfull. lia. }
    rewrite E1. cbn [bind]. rewrite Nat.sub_0_r in *.
    rewrite uadd_ok by lia. cbn [bind].
    set (s1 := fold_left _ _ s0) in *.
    destruct (for_range_fold (fun s r => p2_ref_partial t d diag (nth r rc []) s) (fun s => length s = t)
                (rf / 2) (rf / 2 + rp) (p2_partial_round P) s1 L1) as [E2 L2].
    { intros r s Hr Hs. split; [|apply p2_ref_partial_length].
      apply (p2_partial_round_ok P); try assumption; [apply Hpart; lia|]. intros; apply Hdiag; [assumption|lia]. }
    rewrite E2. cbn [bind]. replace (rf / 2 + rp - rf / 2) with rp in * by lia.
    set (s2 := fold_left _ _ s1) in *.
    destruct (for_range_fold (fun s r => p2_ref_full t d (nth r rc []) s) (fun s => length s = t)
                (rf / 2 + rp) (rf + rp) (p2_full_round P) s2 L2) as [E3 L3].
    { intros r s Hr Hs. split; [|apply p2_ref_full_length].
      apply (p2_full_round_ok P); try assumption. apply Hfull. lia. }
    rewrite E3. replace (rf + rp - (rf / 2 + rp)) with (rf / 2) by lia. reflexivity.
  Qed.

  Theorem p2_permutation_panic dbg t d rf rp (diag : list F) (mi rc : list (list F)) P x :
    p2_new dbg t d rf rp diag mi rc = Ok P ->
    (N.of_nat rf + N.of_nat rp < usize_mod)%N ->
    ~ (length x = t /\ p2_width t /\ (rf + rp = 0 \/ sbox_degree d) /\ p2_data_ok t rf rp diag rc) ->
    p2_permutation dbg P x = Panic.
  Proof.
    intros Hnew Hb Hno.
    destruct (p2_new_ok _ _ _ _ _ _ _ _ _ Hnew Hb) as [_ [Hev ->]].
    pose proof (even_half rf Hev) as Hh.
    unfold p2_permutation. cbn [p2_t p2_rounds_f_beginning p2_rounds_p p2_rounds].
    destruct (Nat.eqb_spec (length x) t) as [Hx|Hx]; [|reflexivity]. cbn [assert bind].
    set (P := {| p2_t := t |}).
    destruct (p2_width_dec t) as [Hw|Hw]; [|rewrite p2_matmul_external_width by exact Hw; reflexivity].
    rewrite (p2_matmul_external_ok P x Hw Hx). cbn [bind]. cbn [p2_t P].
    set (s0 := mat_apply t t (ext_matrix t) x).
    assert (L0 : length s0 = t) by apply mat_apply_length.
    set (okf := fun r => sbox_degree d /\ t <= length (nth r rc [])).
    set (okp := fun r => sbox_degree d /\ 1 <= length (nth r rc []) /\ (4 <= t -> t <= length diag)).
    assert (okf_dec : forall r, {okf r} + {~ okf r}).
    { intros r. unfold okf. destruct (sbox_degree_dec d), (le_lt_dec t (length (nth r rc []))); [left; tauto|right; lia|right; tauto|right; tauto]. }
    assert (okp_dec : forall r, {okp r} + {~ okp r}).
    { intros r. unfold okp.
      destruct (sbox_degree_dec d); [|right; tauto].
      destruct (le_lt_dec 1 (length (nth r rc []))); [|right; lia].
      destruct (le_lt_dec 4 t); [|left; repeat split; auto; lia].
      destruct (le_lt_dec t (length diag)); [left; repeat split; auto|right; lia]. }
    assert (all_dec : forall (ok : nat -> Prop), (forall r, {ok r} + {~ ok r}) -> forall lo hi,
               (exists i, lo <= i < hi /\ ~ ok i) \/ (forall i, lo <= i < hi -> ok i)).
    { intros ok dec lo hi. induction hi as [|hi IH]; [right; intros; lia|].
      destruct IH as [[i [Hi Hi']]|IH]; [left; exists i; split; [lia|exact Hi']|].
      destruct (dec hi) as [Y|N].
      - right. intros i Hi. destruct (Nat.eq_dec i hi) as [->|]; [exact Y|apply IH; lia].
      - destruct (le_lt_dec lo hi); [left; exists hi; split; [lia|exact N]|right; intros; lia]. }
    assert (Fok : forall i s, length s = t -> okf i ->
       p2_full_round P i s = Ok (p2_ref_full t d (nth i rc []) s) /\ length (p2_ref_full t d (nth i rc []) s) = t).
    { intros i s Hs [A B]. split; [apply (p2_full_round_ok P); assumption|apply p2_ref_full_length]. }
    assert (Fno : forall i s, length s = t -> ~ okf i -> p2_full_round P i s = Panic).
    { intros i s Hs A. apply (p2_full_round_panic P); assumption. }
    assert (Pok : forall i s, length s = t -> okp i ->
       p2_partial_round P i s = Ok (p2_ref_partial t d diag (nth i rc []) s) /\
       length (p2_ref_partial t d diag (nth i rc []) s) = t).
    { intros i s Hs [A [B C]]. split; [apply (p2_partial_round_ok P); assumption|apply p2_ref_partial_length]. }
    assert (Pno : forall i s, length s = t -> ~ okp i -> p2_partial_round P i s = Panic).
    { intros i s Hs A. apply (p2_partial_round_panic P); assumption. }
    rewrite uadd_ok by lia. cbn [bind].
    destruct (all_dec okf okf_dec 0 (rf / 2)) as [B1|A1].
    { rewrite (for_range_fold_panic (fun s r => p2_ref_full t d (nth r rc []) s)
                 (fun s => length s = t) okf 0 (rf / 2)); auto. }
    destruct (for_range_fold (fun s r => p2_ref_full t d (nth r rc []) s) (fun s => length s = t)
                0 (rf / 2) (p2_full_round P) s0 L0) as [E1 L1]; [intros; apply Fok; auto|].
    rewrite E1. cbn [bind]. set (s1 := fold_left _ _ s0) in *.
    destruct (all_dec okp okp_dec (rf / 2) (rf / 2 + rp)) as [B2|A2].
    { rewrite (for_range_fold_panic (fun s r => p2_ref_partial t d diag (nth r rc []) s)
                 (fun s => length s = t) okp (rf / 2) (rf / 2 + rp)); auto. }
    destruct (for_range_fold (fun s r => p2_ref_partial t d diag (nth r rc []) s) (fun s => length s = t)
                (rf / 2) (rf / 2 + rp) (p2_partial_round P) s1 L1) as [E2 L2]; [intros; apply Pok; auto|].
    rewrite E2. cbn [bind]. set (s2 := fold_left _ _ s1) in *.
    destruct (all_dec okf okf_dec (rf / 2 + rp) (rf + rp)) as [B3|A3].
    { apply (for_range_fold_panic (fun s r => p2_ref_full t d (nth r rc []) s)
                 (fun s => length s = t) okf (rf / 2 + rp) (rf + rp)); auto. }
    exfalso. apply Hno. repeat split; try assumption.
    - destruct (Nat.eq_dec (rf + rp) 0) as [|Hz]; [left; assumption|right].
      destruct (le_lt_dec (rf / 2) 0) as [Z|Z].
      + apply (A2 (rf / 2)). lia.
      + apply (A1 0). lia.
    - intros r Hr. destruct Hr as [Hr|Hr]; [apply A1; lia|apply A3; lia].
    - intros r Hr. apply A2; lia.
    - intros H4 Hp. destruct (A2 (rf / 2)) as [_ [_ C]]; [lia|]. auto.
  Qed.
End P2.
