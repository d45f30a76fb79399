(** * Elim: computed certificates that all leading blocks of a matrix (and of its powers) are nonsingular *)
From Verif Require Import Base Field Spec LinAlg SpecPoseidon.

Lemma nth_map_d {A B} (f : A -> B) l j da db : j < length l -> nth j (map f l) db = f (nth j l da).
Proof. intros H. rewrite (nth_indep _ db (f da)) by (rewrite map_length; exact H). apply map_nth. Qed.

Section Elim.
  Context {F : Type} {Fo : FOps F} (HF : is_field Fo).
  Add Ring FringE : (ff_ring _ HF).

  (** ** One elimination step without division *)
  Definition schur (A : @mat F) : @mat F := fun i j => fsub (fmul (A 0 0) (A (S i) (S j))) (fmul (A (S i) 0) (A 0 (S j))).

  Lemma schur_nonsingular k A : A 0 0 <> f0 -> nonsingular k (schur A) -> nonsingular (S k) A.
  Proof.
    intros Ha HS x Hx.
    assert (H0 : fadd (fmul (A 0 0) (x 0)) (sumn k (fun j => fmul (A 0 (S j)) (x (S j)))) = f0).
    { rewrite <- (Hx 0) by lia. symmetry. apply (sumn_first HF). }
    assert (Ht : forall j, j < k -> x (S j) = f0).
    { apply (HS (fun j => x (S j))). intros i Hi.
      assert (Hi' : fadd (fmul (A (S i) 0) (x 0)) (sumn k (fun j => fmul (A (S i) (S j)) (x (S j)))) = f0).
      { rewrite <- (Hx (S i)) by lia. symmetry. apply (sumn_first HF). }
      transitivity (fsub (fmul (A 0 0) (sumn k (fun j => fmul (A (S i) (S j)) (x (S j)))))
                         (fmul (A (S i) 0) (sumn k (fun j => fmul (A 0 (S j)) (x (S j)))))).
      - rewrite <- !(sumn_mul_l HF), <- (sumn_sub HF). apply sumn_ext. intros j _. unfold schur. ring.
      - transitivity (fsub (fmul (A 0 0) (fadd (fmul (A (S i) 0) (x 0)) (sumn k (fun j => fmul (A (S i) (S j)) (x (S j))))))
           (fmul (A (S i) 0) (fadd (fmul (A 0 0) (x 0)) (sumn k (fun j => fmul (A 0 (S j)) (x (S j))))))); [ring|].
        rewrite H0, Hi'. ring. }
    intros [|j] Hj; [|apply Ht; lia].
    rewrite (sumn_zero HF) in H0 by (intros j' Hj'; rewrite Ht by exact Hj'; ring).
    apply (fmul_cancel_l HF (A 0 0)); [exact Ha|]. transitivity (fadd (fmul (A 0 0) (x 0)) f0); [ring|].
    rewrite H0. ring.
  Qed.

  Definition elim_row (a : F) (r0 row : list F) : list F :=
    match row with
    | b :: r => map (fun '(x, y) => fsub (fmul a x) (fmul b y)) (combine r r0)
    | [] => []
    end.
  Fixpoint elim (n : nat) (m : list (list F)) : bool :=
    match n with
    | O => true
    | S k => match m with
             | (a :: r0) :: rest => negb (feqb a f0) && elim k (map (elim_row a r0) rest)
             | _ => false
             end
    end.

  Lemma elim_row_length a r0 row k : length r0 = k -> length row = S k -> length (elim_row a r0 row) = k.
  Proof. destruct row as [|b r]; cbn; [lia|]. rewrite map_length, combine_length. lia. Qed.
  Lemma elim_row_nth a r0 row k j : length r0 = k -> length row = S k -> j < k ->
    nth j (elim_row a r0 row) f0 = fsub (fmul a (nth (S j) row f0)) (fmul (nth 0 row f0) (nth j r0 f0)).
  Proof.
    destruct row as [|b r]; cbn [elim_row length nth]; [lia|]. intros H0 Hr Hj.
    rewrite (nth_map_d _ _ j (f0, f0)) by (rewrite combine_length; lia). rewrite combine_nth by lia. reflexivity.
  Qed.

  Lemma nonsingular_ext k (A B : @mat F) : (forall i j, i < k -> j < k -> A i j = B i j) -> nonsingular k A -> nonsingular k B.
  Proof.
    intros E HA x Hx. apply HA. intros i Hi. rewrite <- (Hx i Hi). apply sumn_ext. intros j Hj. rewrite E by assumption. reflexivity.
  Qed.

  Theorem elim_ok n : forall m, dims n n m -> elim n m = true -> leading_blocks n (entry m).
  Proof.
    induction n as [|n IH]; intros m [Hm Hr] H k Hk; [lia|].
    destruct m as [|[|a r0] rest]; cbn [elim] in H; try discriminate.
    apply andb_true_iff in H. destruct H as [Ha H]. cbn in Hm.
    assert (Ha0 : a <> f0).
    { intros ->. rewrite (feqb_refl HF) in Ha. discriminate. }
    assert (H0 : length r0 = n) by (specialize (Hr 0 ltac:(lia)); cbn in Hr; lia).
    assert (HR : forall i, i < n -> length (nth i rest []) = S n) by (intros i Hi; apply (Hr (S i)); lia).
    assert (E : forall i, i < n -> nth i (map (elim_row a r0) rest) [] = elim_row a r0 (nth i rest [])).
    { intros i Hi. rewrite (nth_indep _ [] (elim_row a r0 [])) by (rewrite map_length; lia). apply map_nth. }
    assert (HD : dims n n (map (elim_row a r0) rest)).
    { split; [rewrite map_length; lia|]. intros i Hi. rewrite E by exact Hi. apply elim_row_length; [exact H0|apply HR; exact Hi]. }
    specialize (IH _ HD H).
    destruct k as [|k]; [lia|]. apply schur_nonsingular; [exact Ha0|].
    destruct k as [|k]; [intros x _ j Hj; lia|].
    apply nonsingular_ext with (entry (map (elim_row a r0) rest)); [|apply IH; lia].
    intros i j Hi Hj. unfold entry, schur. rewrite E by lia.
    rewrite (elim_row_nth a r0 _ n j H0) by (try apply HR; lia). cbn [nth]. reflexivity.
  Qed.

  (** ** Products *)
  Definition vadd_mul (c : F) (r acc : list F) : list F := map (fun '(x, y) => fadd x (fmul c y)) (combine acc r).
  Fixpoint row_mul (c : list F) (B : list (list F)) (acc : list F) : list F :=
    match c, B with
    | a :: c', r :: B' => row_mul c' B' (vadd_mul a r acc)
    | _, _ => acc
    end.
  Definition lmul (n : nat) (A B : list (list F)) : list (list F) := map (fun c => row_mul c B (repeat f0 n)) A.

  Lemma vadd_mul_length c r acc n : length r = n -> length acc = n -> length (vadd_mul c r acc) = n.
  Proof. intros. unfold vadd_mul. rewrite map_length, combine_length. lia. Qed.
  Lemma vadd_mul_nth c r acc n j : length r = n -> length acc = n -> j < n ->
    nth j (vadd_mul c r acc) f0 = fadd (nth j acc f0) (fmul c (nth j r f0)).
  Proof.
    intros Hr Ha Hj. unfold vadd_mul.
    rewrite (nth_map_d _ _ j (f0, f0)) by (rewrite combine_length; lia). rewrite combine_nth by lia. reflexivity.
  Qed.
  Lemma row_mul_ok n k : forall c B acc, length c = k -> length B = k -> (forall i, i < k -> length (nth i B []) = n) ->
    length acc = n ->
    length (row_mul c B acc) = n /\
    forall j, j < n -> nth j (row_mul c B acc) f0 = fadd (nth j acc f0) (sumn k (fun l => fmul (nth l c f0) (nth j (nth l B []) f0))).
  Proof.
    induction k as [|k IH]; intros c B acc Hc HB Hr Ha.
    - destruct c; [|discriminate]. cbn. split; [exact Ha|]. intros j Hj. ring.
    - destruct c as [|a c]; [discriminate|]. destruct B as [|r B]; [discriminate|]. cbn [row_mul].
      assert (Lr : length r = n) by (apply (Hr 0); lia).
      destruct (IH c B (vadd_mul a r acc)) as [L N].
      + cbn in Hc; lia.
      + cbn in HB; lia.
      + intros i Hi. apply (Hr (S i)). lia.
      + apply vadd_mul_length; assumption.
      + split; [exact L|]. intros j Hj. rewrite N by exact Hj. rewrite (vadd_mul_nth a r acc n j) by assumption.
        rewrite (sumn_first HF). cbn [nth]. ring.
  Qed.
  Lemma lmul_ok n A B : dims n n A -> dims n n B ->
    dims n n (lmul n A B) /\ forall i j, i < n -> j < n -> entry (lmul n A B) i j = mat_mul n (entry A) (entry B) i j.
  Proof.
    intros [LA RA] [LB RB]. unfold lmul.
    assert (E : forall i, i < n -> nth i (map (fun c => row_mul c B (repeat f0 n)) A) [] = row_mul (nth i A []) B (repeat f0 n)).
    { intros i Hi. rewrite (nth_map_d _ _ i []) by lia. reflexivity. }
    split.
    - split; [rewrite map_length; exact LA|]. intros i Hi. rewrite E by exact Hi.
      apply (row_mul_ok n n); [apply RA; exact Hi|exact LB|exact RB|apply repeat_length].
    - intros i j Hi Hj. unfold entry at 1. rewrite E by exact Hi.
      rewrite (proj2 (row_mul_ok n n (nth i A []) B (repeat f0 n) (RA i Hi) LB RB (repeat_length _ _))) by exact Hj.
      rewrite nth_repeat_same. unfold mat_mul, entry. ring.
  Qed.

  (** all leading blocks of M^1, ..., M^k; [cur] is the current power *)
  Fixpoint elim_pows (n k : nat) (M cur : list (list F)) : bool :=
    match k with
    | O => true
    | S k' => elim n cur && (match k' with O => true | _ => elim_pows n k' M (lmul n M cur) end)
    end.
  Lemma elim_pows_ok n M : dims n n M -> forall k e cur, dims n n cur ->
    (forall i j, i < n -> j < n -> entry cur i j = mat_pow n (entry M) e i j) ->
    elim_pows n k M cur = true -> forall l, e <= l < e + k -> leading_blocks n (mat_pow n (entry M) l).
  Proof.
    intros HM. induction k as [|k IH]; intros e cur HD HC H l Hl; [lia|].
    cbn [elim_pows] in H. apply andb_true_iff in H. destruct H as [H1 H2].
    destruct (Nat.eq_dec l e) as [->|Hne].
    - intros j Hj. apply nonsingular_ext with (entry cur); [intros; apply HC; lia|]. apply (elim_ok n cur HD H1). exact Hj.
    - destruct k as [|k]; [lia|]. destruct (lmul_ok n M cur HM HD) as [D' E'].
      apply (IH (S e) (lmul n M cur)); [exact D'| |exact H2|lia].
      intros i j Hi Hj. rewrite E' by assumption. cbn [mat_pow]. unfold mat_mul. apply sumn_ext. intros x Hx.
      rewrite HC by assumption. reflexivity.
  Qed.

  Definition drop0_list (m : list (list F)) : list (list F) := map (fun r => skipn 1 r) (skipn 1 m).
  Lemma drop0_list_ok n m : dims (S n) (S n) m -> dims n n (drop0_list m) /\
    forall i j, i < n -> j < n -> entry (drop0_list m) i j = drop0 (entry m) i j.
  Proof.
    intros [L R]. destruct m as [|r0 m]; [discriminate|]. unfold drop0_list. cbn [skipn]. cbn in L.
    assert (E : forall i, i < n -> nth i (map (fun r => skipn 1 r) m) [] = skipn 1 (nth i m [])).
    { intros i Hi. rewrite (nth_map_d _ _ i []) by lia. reflexivity. }
    split.
    - split; [rewrite map_length; lia|]. intros i Hi. rewrite E, skipn_length by exact Hi. specialize (R (S i) ltac:(lia)). cbn [nth] in R. lia.
    - intros i j Hi Hj. unfold entry, drop0. rewrite E by exact Hi. cbn [nth].
      destruct (nth i m []) as [|x r]; [destruct j; reflexivity|reflexivity].
  Qed.

  (** the computed form of the condition of C16 *)
  Definition new_check (t rp : nat) (m : list (list F)) : bool :=
    elim t m && elim_pows (t - 1) rp (drop0_list m) (drop0_list m).
  Theorem new_check_ok t rp m : 1 <= t -> dims t t m -> new_check t rp m = true ->
    leading_blocks t (entry m) /\ forall k, 1 <= k <= rp -> leading_blocks (t - 1) (mat_pow (t - 1) (drop0 (entry m)) k).
  Proof.
    intros Ht HD H. apply andb_true_iff in H. destruct H as [H1 H2]. split; [apply elim_ok; assumption|].
    destruct t as [|n]; [lia|]. replace (S n - 1) with n in * by lia.
    destruct (drop0_list_ok n m HD) as [D' E'].
    intros k Hk. 
    assert (G : forall l i j, i < n -> j < n -> mat_pow n (entry (drop0_list m)) l i j = mat_pow n (drop0 (entry m)) l i j).
    { induction l as [|l IH]; intros i j Hi Hj; cbn [mat_pow]; [reflexivity|]. unfold mat_mul. apply sumn_ext.
      intros x Hx. rewrite E', IH by assumption. reflexivity. }
    intros l Hl. apply nonsingular_ext with (mat_pow n (entry (drop0_list m)) k); [intros; apply G; lia|].
    apply (elim_pows_ok n _ D' rp 1 (drop0_list m) D'); [|exact H2|lia|exact Hl].
    intros i j Hi Hj. cbn [mat_pow]. unfold mat_mul, mat_id. symmetry. apply (sumn_delta' HF). exact Hj.
  Qed.
End Elim.
