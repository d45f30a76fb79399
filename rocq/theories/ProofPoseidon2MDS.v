(** * Exact characteristics in which the small external matrices are MDS (property C06) *)
From Verif Require Import Base Field Spec LinAlg SpecMDS MDS SpecPoseidon2 ProofPoseidon2Lin.

(** ** Distinct index lists *)
Definition memb (a : nat) (l : list nat) : bool := existsb (Nat.eqb a) l.
Lemma memb_In a l : memb a l = true <-> In a l.
Proof.
  unfold memb. rewrite existsb_exists. split.
  - intros [x [H E]]. apply Nat.eqb_eq in E. congruence.
  - intros H. exists a. rewrite Nat.eqb_refl. auto.
Qed.
Fixpoint nodups (n k : nat) : list (list nat) :=
  match k with
  | O => [[]]
  | S k => flat_map (fun l => map (fun a => a :: l) (filter (fun a => negb (memb a l)) (seq 0 n))) (nodups n k)
  end.
Lemma nodups_complete n l : NoDup l -> (forall a, In a l -> a < n) -> In l (nodups n (length l)).
Proof.
  induction l as [|a l IH]; intros Hn Hr; [left; reflexivity|]. inversion Hn; subst.
  cbn [nodups length]. apply in_flat_map. exists l. split.
  - apply IH; [assumption|]. intros; apply Hr; right; assumption.
  - apply in_map_iff. exists a. split; [reflexivity|]. apply filter_In. split.
    + apply in_seq. specialize (Hr a (or_introl eq_refl)). lia.
    + destruct (memb a l) eqn:E; [apply memb_In in E; contradiction|reflexivity].
Qed.
Lemma nodups_length n k l : In l (nodups n k) -> length l = k.
Proof.
  revert l; induction k as [|k IH]; intros l H; cbn [nodups] in H.
  - destruct H as [<-|[]]. reflexivity.
  - apply in_flat_map in H. destruct H as [l' [H1 H2]]. apply in_map_iff in H2. destruct H2 as [a [<- _]].
    simpl. rewrite (IH l' H1). reflexivity.
Qed.

(** ** Integer determinants and adjugates (only used as certificates) *)
Definition zsum (n : nat) (f : nat -> Z) : Z := fold_right Z.add 0%Z (map f (seq 0 n)).
Fixpoint remove_at {A} (j : nat) (l : list A) : list A :=
  match l, j with [], _ => [] | _ :: l, O => l | a :: l, S j => a :: remove_at j l end.
Definition zsgn (n : nat) : Z := if Nat.even n then 1%Z else (-1)%Z.
Fixpoint zdet (k : nat) (m : list (list Z)) : Z :=
  match k, m with
  | S k, r :: rs => zsum (length r) (fun j => zsgn j * nth j r 0%Z * zdet k (map (remove_at j) rs))%Z
  | _, _ => 1%Z
  end.
Definition zadj (k : nat) (m : list (list Z)) (i j : nat) : Z :=
  (zsgn (i + j) * zdet (k - 1) (map (remove_at i) (remove_at j m)))%Z.
Definition sub_of (B : nat -> nat -> Z) rows cols : list (list Z) := map (fun r => map (B r) cols) rows.
Definition cert_ok (W : Z) (B : nat -> nat -> Z) (rows cols : list nat) : bool :=
  let k := length rows in
  let m := sub_of B rows cols in
  let D := zdet k m in
  negb (D =? 0)%Z && (W mod D =? 0)%Z &&
  forallb (fun i => forallb (fun j =>
    Z.eqb (zsum k (fun l => Z.mul (zadj k m i l) (B (nth l rows 0) (nth j cols 0)))) (if i =? j then D else 0%Z)) (seq 0 k)) (seq 0 k).
Definition all_cert (W : Z) (B : nat -> nat -> Z) (n : nat) : bool :=
  forallb (fun k => forallb (fun rows => forallb (fun cols => cert_ok W B rows cols) (nodups n k)) (nodups n k)) (seq 0 (S n)).

Section ZMat.
  Context {F : Type} {Fo : FOps F} {p : Z} (HP : is_prime_field Fo p).
  Let HF := prime_field_is_field HP.
  Add Ring FringZM : (ff_ring _ HF).

  Lemma zsum_S n f : zsum (S n) f = (zsum n f + f n)%Z.
  Proof.
    unfold zsum. rewrite seq_S, map_app, fold_right_app. cbn [map fold_right plus].
    assert (G : forall l a, fold_right Z.add a l = (fold_right Z.add 0 l + a)%Z).
    { induction l as [|b l IH]; intros a; cbn [fold_right]; [lia|]. rewrite IH. lia. }
    rewrite G. lia.
  Qed.
  Lemma sumn_of_Z n f : sumn n (fun i => f_of_Z (f i)) = (f_of_Z (zsum n f) : F).
  Proof.
    induction n as [|n IH]; [symmetry; apply (f_of_Z_0 HP)|].
    rewrite zsum_S, (f_of_Z_add HP), <- IH. reflexivity.
  Qed.

  Lemma cert_nonsingular W B rows cols : cert_ok W B rows cols = true -> ~ (p | W)%Z ->
    nonsingular (length rows) (fun i j => f_of_Z (B (nth i rows 0) (nth j cols 0)) : F).
  Proof.
    unfold cert_ok. set (k := length rows). set (m := sub_of B rows cols). set (D := zdet k m).
    intros H HW. apply andb_true_iff in H. destruct H as [H Hc]. apply andb_true_iff in H. destruct H as [HD0 HWD].
    assert (HD : f_of_Z D <> (f0 : F)).
    { intros E. apply (f_of_Z_eq_0 HP) in E. apply HW. apply negb_true_iff, Z.eqb_neq in HD0.
      apply Z.eqb_eq in HWD. apply Z.mod_divide in HWD; [|exact HD0]. eapply Z.divide_trans; eassumption. }
    intros x Hx j Hj.
    assert (E : sumn k (fun i => fmul (f_of_Z (zadj k m j i))
                  (sumn k (fun l => fmul (f_of_Z (B (nth i rows 0) (nth l cols 0))) (x l)))) = (f0 : F)).
    { apply (sumn_zero HF). intros i Hi. rewrite Hx by exact Hi. ring. }
    assert (E2 : sumn k (fun i => fmul (f_of_Z (zadj k m j i))
                  (sumn k (fun l => fmul (f_of_Z (B (nth i rows 0) (nth l cols 0))) (x l)))) = fmul (f_of_Z D) (x j)).
    { transitivity (sumn k (fun l => sumn k (fun i => fmul (fmul (f_of_Z (zadj k m j i)) (f_of_Z (B (nth i rows 0) (nth l cols 0)))) (x l)))).
      - rewrite <- (sumn_swap HF). apply sumn_ext. intros i Hi. rewrite <- (sumn_mul_l HF). apply sumn_ext. intros l Hl. ring.
      - rewrite (sumn_single HF k j); [|exact Hj|].
        + rewrite (sumn_mul_r HF). f_equal.
          rewrite forallb_forall in Hc. specialize (Hc j ltac:(apply in_seq; lia)).
          rewrite forallb_forall in Hc. specialize (Hc j ltac:(apply in_seq; lia)).
          apply Z.eqb_eq in Hc. rewrite Nat.eqb_refl in Hc. rewrite <- Hc, <- sumn_of_Z.
          apply sumn_ext. intros i Hi. symmetry. apply (f_of_Z_mul HP).
        + intros l Hl Hne. rewrite (sumn_mul_r HF).
          rewrite forallb_forall in Hc. specialize (Hc j ltac:(apply in_seq; lia)).
          rewrite forallb_forall in Hc. specialize (Hc l ltac:(apply in_seq; lia)).
          apply Z.eqb_eq in Hc. destruct (Nat.eqb_spec j l); [congruence|].
          transitivity (fmul (f_of_Z 0) (x l)).
          * f_equal. rewrite <- Hc, <- sumn_of_Z. apply sumn_ext. intros i Hi. symmetry. apply (f_of_Z_mul HP).
          * rewrite (f_of_Z_0 HP). ring. }
    rewrite E2 in E. destruct (fmul_integral HF _ _ E) as [C|C]; [contradiction|exact C].
  Qed.

  Lemma all_cert_mds W B n (A : @mat F) : all_cert W B n = true -> ~ (p | W)%Z ->
    (forall i j, i < n -> j < n -> A i j = f_of_Z (B i j)) -> is_mds n A.
  Proof.
    intros H HW HA. apply (minors_mds HF). intros rows cols Hrn Hcn Hlr Hr Hc.
    assert (Hk : length rows <= n).
    { rewrite <- (seq_length n 0). apply NoDup_incl_length; [exact Hrn|]. intros a Ha. apply in_seq. specialize (Hr a Ha). lia. }
    unfold all_cert in H. rewrite forallb_forall in H. specialize (H (length rows) ltac:(apply in_seq; lia)).
    rewrite forallb_forall in H. specialize (H rows (nodups_complete n rows Hrn Hr)).
    rewrite forallb_forall in H. rewrite Hlr in H. specialize (H cols (nodups_complete n cols Hcn Hc)).
    pose proof (cert_nonsingular W B rows cols H HW) as N.
    intros x Hx. apply N. intros i Hi. etransitivity; [|exact (Hx i Hi)]. apply sumn_ext. intros j Hj.
    cbv beta. rewrite HA; [reflexivity|apply Hr, nth_In; exact Hi|apply Hc, nth_In; lia].
  Qed.

  (** ** Refutations by an integer vector *)
  Definition zapply (n : nat) (B : nat -> nat -> Z) (v : list Z) : list Z :=
    map (fun i => zsum n (fun j => B i j * nth j v 0)%Z) (seq 0 n).
  Definition zweight (q : Z) (v : list Z) : nat := length (filter (fun z => negb (z mod q =? 0)%Z) v).
  Lemma weight_of_Z v : weight (map f_of_Z v : list F) = zweight p v.
  Proof.
    unfold weight, zweight. rewrite filter_map_length. f_equal. apply filter_ext. intros z. f_equal.
    pose proof (pf_p_ge_2 HP).
    destruct (Z.eqb_spec (z mod p) 0) as [E|E].
    - apply Z.mod_divide in E; [|lia]. apply (f_of_Z_eq_0 HP) in E. rewrite E. apply (feqb_refl HF).
    - apply (feqb_neq HF). intros C. apply (f_of_Z_eq_0 HP) in C. apply E. apply Z.mod_divide; [lia|exact C].
  Qed.
  Lemma zapply_of_Z n B v (A : @mat F) : length v = n ->
    (forall i j, i < n -> j < n -> A i j = f_of_Z (B i j)) ->
    mat_apply n n A (map f_of_Z v) = map f_of_Z (zapply n B v).
  Proof.
    intros Hv HA. unfold mat_apply, zapply. rewrite map_map. apply map_seq_ext. intros i Hi.
    rewrite <- sumn_of_Z. apply sumn_ext. intros j Hj. cbv beta. rewrite (f_of_Z_mul HP), HA by assumption. f_equal.
    rewrite (nth_indep (map f_of_Z v) f0 (f_of_Z 0%Z)) by (rewrite map_length; lia). apply map_nth.
  Qed.
  Lemma not_mds n B (A : @mat F) v :
    (forall i j, i < n -> j < n -> A i j = f_of_Z (B i j)) ->
    length v = n -> 0 < zweight p v -> zweight p v + zweight p (zapply n B v) <= n -> ~ is_mds n A.
  Proof.
    intros HA Hv Hw Hs HM. specialize (HM (map f_of_Z v)).
    rewrite (zapply_of_Z n B v A Hv HA), !weight_of_Z, map_length in HM.
    assert (n + 1 <= zweight p v + zweight p (zapply n B v)); [|lia]. apply HM; [exact Hv|].
    intros E. assert (W : weight (map f_of_Z v : list F) = 0).
    { rewrite E. assert (G : forall k, weight (repeat f0 k : list F) = 0); [|apply G].
      unfold weight. induction k as [|k IH]; [reflexivity|]. cbn [repeat filter].
      rewrite (feqb_refl HF). exact IH. }
    rewrite weight_of_Z in W. lia.
  Qed.

  (** ** The Poseidon2 external matrices *)
  Definition zext (t : nat) (i j : nat) : Z :=
    if t <? 4 then (if i =? j then 2%Z else 1%Z)
    else nth j (nth i [[5;7;1;3];[4;6;1;1];[1;3;5;7];[1;1;4;6]] [])%Z 0%Z.

  Lemma zext_ok t i j : In t [2;3;4] -> i < t -> j < t -> ext_matrix t i j = (f_of_Z (zext t i j) : F).
  Proof.
    intros Ht Hi Hj. unfold ext_matrix, zext.
    destruct Ht as [<-|[<-|[<-|[]]]]; cbn [Nat.ltb Nat.leb Nat.eqb].
    - rewrite (fnat_Z HP). f_equal. destruct (i =? j); reflexivity.
    - rewrite (fnat_Z HP). f_equal. destruct (i =? j); reflexivity.
    - unfold M4. rewrite (fnat_Z HP). f_equal.
      do 4 (destruct i as [|i]; [do 4 (destruct j as [|j]; [reflexivity|]); lia|]). lia.
  Qed.

  Lemma prime_pow_div a n : (p | a ^ Z.of_nat n)%Z -> (p | a)%Z.
  Proof.
    induction n as [|n IH]; intros H.
    - change (a ^ Z.of_nat 0)%Z with 1%Z in H. pose proof (pf_p_ge_2 HP). apply Z.divide_1_r_nonneg in H; lia.
    - rewrite Nat2Z.inj_succ, Z.pow_succ_r in H by lia.
      apply prime_mult in H; [|apply (pf_prime _ _ HP)]. destruct H; auto.
  Qed.
  Lemma prime_div_list l : (p | fold_right Z.mul 1 l)%Z -> (forall q, In q l -> prime q) -> In p l.
  Proof.
    induction l as [|q l IH]; intros H Hq; cbn [fold_right] in H.
    - pose proof (pf_p_ge_2 HP). apply Z.divide_1_r_nonneg in H; lia.
    - apply prime_mult in H; [|apply (pf_prime _ _ HP)]. destruct H as [H|H].
      + left. symmetry. apply prime_div_prime in H; [exact H|apply (pf_prime _ _ HP)|apply Hq; left; reflexivity].
      + right. apply IH; [exact H|]. intros; apply Hq; right; assumption.
  Qed.

  Theorem ext_mds_iff t : In t [2;3;4] -> (is_mds t (ext_matrix t) <-> ~ In p (mds_bad_primes t)).
  Proof.
    intros Ht. split.
    - intros HM Hb. revert HM. pose proof (fun i j => zext_ok t i j Ht) as HA.
      assert (R : forall v, length v = t -> 0 < zweight p v ->
        zweight p v + zweight p (zapply t (zext t) v) <= t -> ~ is_mds t (ext_matrix t)).
      { intros v. apply not_mds. exact HA. }
      destruct Ht as [<-|[<-|[<-|[]]]]; cbn [mds_bad_primes In] in Hb.
      + destruct Hb as [<-|[<-|[]]]; [apply (R [1;0]%Z)|apply (R [1;1]%Z)]; vm_compute; lia.
      + destruct Hb as [<-|[<-|[]]]; [apply (R [1;0;0]%Z)|apply (R [1;1;0]%Z)]; vm_compute; lia.
      + destruct Hb as [<-|[<-|[<-|[<-|[<-|[<-|[<-|[<-|[]]]]]]]]];
          [apply (R [1;0;0;0]%Z)|apply (R [0;1;0;0]%Z)|apply (R [1;0;0;0]%Z)|apply (R [0;1;0;0]%Z)
          |apply (R [0;1;0;5]%Z)|apply (R [0;1;0;2]%Z)|apply (R [1;0;14;0]%Z)|apply (R [1;0;0;19]%Z)]; vm_compute; lia.
    - intros Hp.
      assert (HW : ~ (p | fold_right Z.mul 1 (mds_bad_primes t) ^ Z.of_nat 6)%Z).
      { intros D. apply Hp, prime_div_list; [apply (prime_pow_div _ 6); exact D|].
        intros q Hq. assert (Hq' : (2 <= q < 25)%Z /\ forallb (fun k => negb (q mod k =? 0)%Z) [2;3;4]%Z = true \/ q = 2%Z \/ q = 3%Z).
        { destruct Ht as [<-|[<-|[<-|[]]]]; cbn [mds_bad_primes In] in Hq;
            repeat (destruct Hq as [<-|Hq]; [first [right; lia|left; split; [lia|reflexivity]]|]); destruct Hq. }
        destruct Hq' as [[H1 H2]|[->| ->]]; [|exact prime_2|exact prime_3].
        apply small_prime; [exact H1|]. intros k Hk. rewrite forallb_forall in H2.
        assert (In k [2;3;4]%Z) as Hk' by (simpl; lia). specialize (H2 k Hk'). apply negb_true_iff, Z.eqb_neq in H2. exact H2. }
      apply (all_cert_mds (fold_right Z.mul 1 (mds_bad_primes t) ^ Z.of_nat 6)%Z (zext t)).
      + destruct Ht as [<-|[<-|[<-|[]]]]; vm_compute; reflexivity.
      + exact HW.
      + intros i j. apply zext_ok. exact Ht.
  Qed.
End ZMat.
