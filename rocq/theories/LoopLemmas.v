(** * LoopLemmas: refinement of common loop shapes *)
From Verif Require Import Base Field Spec LinAlg.

(** [for i in lo..hi { v[i] = g i v[i] }] *)
Lemma for_range_inplace {A} (d : A) (g : nat -> A -> A) (body : nat -> list A -> res (list A)) lo hi l :
  lo <= hi -> hi <= length l ->
  (forall i s, lo <= i < hi -> length s = length l -> nth i s d = nth i l d ->
     body i s = upd s i (g i (nth i s d))) ->
  for_range lo hi body l =
  Ok (map (fun i => if (lo <=? i) && (i <? hi) then g i (nth i l d) else nth i l d) (seq 0 (length l))).
Proof.
  intros Hlo Hhi Hb.
  destruct (for_range_inv (fun k s => length s = length l /\
     forall i, i < length l -> nth i s d = if (lo <=? i) && (i <? k) then g i (nth i l d) else nth i l d)
     lo hi body l) as [s [E [Hl Hs]]].
  - exact Hlo.
  - split; [reflexivity|]. intros i Hi.
    destruct (Nat.leb_spec lo i), (Nat.ltb_spec i lo); simpl; try reflexivity; lia.
  - intros i s Hi [Hl Hs].
    assert (Hni : nth i s d = nth i l d).
    { rewrite Hs by lia. destruct (Nat.leb_spec lo i), (Nat.ltb_spec i i); simpl; try lia; reflexivity. }
    rewrite (Hb i s Hi Hl Hni). rewrite upd_ok by lia. eexists; split; [reflexivity|].
    split; [rewrite set_nth_length by lia; exact Hl|].
    intros j Hj. rewrite set_nth_nth by lia. destruct (Nat.eqb_spec j i) as [->|Hn].
    + rewrite Hni. destruct (Nat.leb_spec lo i), (Nat.ltb_spec i (S i)); simpl; try lia; reflexivity.
    + rewrite Hs by exact Hj.
      destruct (Nat.leb_spec lo j), (Nat.ltb_spec j i), (Nat.ltb_spec j (S i)); simpl; try reflexivity; lia.
  - rewrite E. f_equal. apply (list_ext d).
    + rewrite map_length, seq_length. exact Hl.
    + intros i Hi. rewrite nth_map_seq by lia. apply Hs. lia.
Qed.

Lemma for_range_map {A} (d : A) (g : nat -> A -> A) (body : nat -> list A -> res (list A)) l :
  (forall i s, i < length l -> length s = length l -> nth i s d = nth i l d ->
     body i s = upd s i (g i (nth i s d))) ->
  for_range 0 (length l) body l = Ok (map (fun i => g i (nth i l d)) (seq 0 (length l))).
Proof.
  intros Hb. rewrite (for_range_inplace d g body 0 (length l) l).
  - f_equal. apply map_seq_ext. intros i Hi. simpl.
    destruct (Nat.ltb_spec i (length l)); [reflexivity|lia].
  - lia.
  - lia.
  - intros i s Hi. apply Hb. lia.
Qed.

(** first Panic in a loop *)
Lemma for_range_panic {St} lo k hi (body : nat -> St -> res St) s s1 :
  lo <= k < hi -> for_range lo k body s = Ok s1 -> body k s1 = Panic ->
  for_range lo hi body s = Panic.
Proof.
  intros Hk E Hp. unfold for_range in *.
  replace (hi - lo) with ((k - lo) + S (hi - S k)) by lia.
  rewrite seq_app, for_list_app, E. cbn [bind seq for_list].
  replace (lo + (k - lo)) with k by lia. rewrite Hp. reflexivity.
Qed.

Lemma for_list_not_fuel {X St} (l : list X) (body : X -> St -> res St) s :
  (forall x s, body x s <> Fuel) -> for_list l body s <> Fuel.
Proof.
  intros H. revert s. induction l as [|x l IH]; intros s; simpl; [discriminate|].
  destruct (body x s) eqn:E; simpl; [apply IH|discriminate|]. exfalso; exact (H _ _ E).
Qed.

Lemma for_range_not_fuel {St} lo hi (body : nat -> St -> res St) s :
  (forall x s, body x s <> Fuel) -> for_range lo hi body s <> Fuel.
Proof. apply for_list_not_fuel. Qed.

Lemma idx_not_fuel {A} (l : list A) i : idx l i <> Fuel.
Proof. unfold idx. destruct (nth_error l i); discriminate. Qed.
Lemma upd_not_fuel {A} (l : list A) i v : upd l i v <> Fuel.
Proof. unfold upd. destruct (i <? length l); discriminate. Qed.
Lemma assert_not_fuel b : assert b <> Fuel.
Proof. destruct b; discriminate. Qed.
Lemma debug_assert_not_fuel b c : debug_assert b c <> Fuel.
Proof. destruct b, c; discriminate. Qed.
Lemma bind_not_fuel {A B} (m : res A) (k : A -> res B) :
  m <> Fuel -> (forall a, k a <> Fuel) -> bind m k <> Fuel.
Proof. destruct m; simpl; auto; discriminate. Qed.
Lemma mapM_not_fuel {A B} (f : A -> res B) l : (forall a, f a <> Fuel) -> mapM f l <> Fuel.
Proof.
  intros H. induction l as [|a l IH]; simpl; [discriminate|].
  apply bind_not_fuel; [apply H|]. intros b. apply bind_not_fuel; [exact IH|discriminate].
Qed.
Lemma idx2_not_fuel {A} (m : list (list A)) i j : idx2 m i j <> Fuel.
Proof. unfold idx2. apply bind_not_fuel; intros; apply idx_not_fuel. Qed.
Lemma upd2_not_fuel {A} (m : list (list A)) i j v : upd2 m i j v <> Fuel.
Proof.
  unfold upd2. apply bind_not_fuel; [apply idx_not_fuel|]. intros.
  apply bind_not_fuel; intros; apply upd_not_fuel.
Qed.
Lemma uadd_not_fuel dbg a b : uadd dbg a b <> Fuel.
Proof. unfold uadd. destruct (_ <? _)%N, dbg; discriminate. Qed.
Lemma usub_not_fuel dbg a b : usub dbg a b <> Fuel.
Proof. unfold usub. destruct (_ <=? _), dbg; discriminate. Qed.

Create HintDb nofuel.
#[export] Hint Resolve idx_not_fuel upd_not_fuel assert_not_fuel debug_assert_not_fuel
  idx2_not_fuel upd2_not_fuel uadd_not_fuel usub_not_fuel : nofuel.
Ltac nofuel :=
  repeat first
    [ discriminate
    | solve [auto with nofuel]
    | apply bind_not_fuel; intros
    | apply for_range_not_fuel; intros
    | apply for_list_not_fuel; intros
    | apply mapM_not_fuel; intros ].

(** a loop whose every step is known to succeed is a fold *)
Lemma for_range_fold {St} (f : St -> nat -> St) (I : St -> Prop) lo hi body s :
  I s ->
  (forall i s, lo <= i < hi -> I s -> body i s = Ok (f s i) /\ I (f s i)) ->
  for_range lo hi body s = Ok (fold_left f (seq lo (hi - lo)) s) /\
  I (fold_left f (seq lo (hi - lo)) s).
Proof.
  intros Hs H. unfold for_range.
  apply (for_list_ok_pure _ body (fun x s => f s x) I); [exact Hs|].
  intros x s' Hx. apply in_seq in Hx. apply H. lia.
Qed.

(** exact outcome of a loop: some step fails on a reachable state *)
Lemma for_range_fold_panic {St} (f : St -> nat -> St) (I : St -> Prop) (ok : nat -> Prop) lo hi body s :
  I s ->
  (forall i, {ok i} + {~ ok i}) ->
  (forall i s, lo <= i < hi -> I s -> ok i -> body i s = Ok (f s i) /\ I (f s i)) ->
  (forall i s, lo <= i < hi -> I s -> ~ ok i -> body i s = Panic) ->
  (exists i, lo <= i < hi /\ ~ ok i) ->
  for_range lo hi body s = Panic.
Proof.
  intros Hs Hdec Hok Hno [k [Hk Hnk]].
  assert (Hmin : exists k, lo <= k < hi /\ ~ ok k /\ forall i, lo <= i < k -> ok i).
  { remember (k - lo) as n eqn:En. revert k Hk Hnk En.
    induction n as [n IH] using lt_wf_ind. intros k Hk Hnk En.
    assert (Hall : (exists i, lo <= i < k /\ ~ ok i) \/ (forall i, lo <= i < k -> ok i)).
    { clear -Hdec. induction k as [|k IHk].
      - right; intros; lia.
      - destruct IHk as [[i [Hi Hi']]|Hi]; [left; exists i; split; [lia|exact Hi']|].
        destruct (Hdec k) as [Y|N].
        + right. intros i Hi'. destruct (Nat.eq_dec i k) as [->|]; [exact Y|]. apply Hi. lia.
        + destruct (le_lt_dec lo k) as [L|L].
          * left. exists k. split; [lia|exact N].
          * right. intros i Hi'. lia. }
    destruct Hall as [[i [Hi Hi']]|Hall].
    - apply (IH (i - lo)) with (k := i); try lia; exact Hi'.
    - exists k. auto. }
  destruct Hmin as [m [Hm [Hnm Hlt]]].
  destruct (for_range_fold f I lo m body s Hs) as [E HI].
  { intros i s' Hi HIs. apply Hok; [lia|exact HIs|apply Hlt; exact Hi]. }
  apply (for_range_panic lo m hi body s _ Hm E). apply Hno; assumption.
Qed.

Section FieldLoops.
  Context {F : Type} {Fo : FOps F} (HF : is_field Fo).
  Add Ring FringLL : (ff_ring _ HF).

  Lemma combine_seq_nth {A} (d : A) (l : list A) :
    combine (seq 0 (length l)) l = map (fun i => (i, nth i l d)) (seq 0 (length l)).
  Proof.
    apply (nth_ext _ _ (0, d) (0, d)).
    - rewrite combine_length, seq_length, map_length, seq_length. lia.
    - intros i Hi. rewrite combine_length, seq_length in Hi.
      rewrite combine_nth by (rewrite seq_length; reflexivity).
      rewrite seq_nth by lia. rewrite (nth_map_seq (fun i => (i, nth i l d))) by lia. reflexivity.
  Qed.

  Lemma for_list_map {X Y St} (h : X -> Y) l (body : Y -> St -> res St) s :
    for_list (map h l) body s = for_list l (fun x => body (h x)) s.
  Proof. revert s; induction l as [|x l IH]; intros s; simpl; [reflexivity|].
         apply bind_ext. intros a _. apply IH. Qed.

  Lemma for_list_enumerate {A St} (d : A) (l : list A) (body : nat * A -> St -> res St) s :
    for_list (combine (seq 0 (length l)) l) body s =
    for_range 0 (length l) (fun i => body (i, nth i l d)) s.
  Proof.
    rewrite (combine_seq_nth d). rewrite for_list_map. unfold for_range. rewrite Nat.sub_0_r. reflexivity.
  Qed.

  (** accumulating into one cell of a vector: [out[k] += term i] *)
  Lemma for_range_acc (k lo hi : nat) (term : nat -> F) (body : nat -> list F -> res (list F)) out :
    lo <= hi -> k < length out ->
    (forall i s, lo <= i < hi -> length s = length out ->
       (forall j, j <> k -> nth j s f0 = nth j out f0) ->
       body i s = upd s k (fadd (nth k s f0) (term i))) ->
    for_range lo hi body out =
    Ok (set_nth out k (fadd (nth k out f0) (sumn (hi - lo) (fun i => term (lo + i))))).
  Proof.
    intros Hlo Hk Hb.
    destruct (for_range_inv (fun i s => length s = length out /\ forall j,
        nth j s f0 = if j =? k then fadd (nth k out f0) (sumn (i - lo) (fun i => term (lo + i)))
                     else nth j out f0)
        lo hi body out) as [s [E [Hl Hs]]].
    - exact Hlo.
    - split; [reflexivity|]. intros j. rewrite Nat.sub_diag. simpl.
      destruct (Nat.eqb_spec j k) as [->|]; [ring|reflexivity].
    - intros i s Hi [Hl Hs].
      assert (Hs' : forall j, j <> k -> nth j s f0 = nth j out f0).
      { intros j Hj. rewrite Hs. destruct (Nat.eqb_spec j k); [contradiction|reflexivity]. }
      rewrite (Hb i s Hi Hl Hs'). rewrite upd_ok by lia. eexists; split; [reflexivity|].
      split; [rewrite set_nth_length by lia; exact Hl|].
      intros j. rewrite set_nth_nth by lia. rewrite !Hs, Nat.eqb_refl.
      destruct (Nat.eqb_spec j k) as [->|Hn]; [|reflexivity].
      replace (S i - lo) with (S (i - lo)) by lia. simpl.
      replace (lo + (i - lo)) with i by lia. ring.
    - rewrite E. f_equal. apply (list_ext f0).
      + rewrite set_nth_length by lia. exact Hl.
      + intros j Hj. rewrite set_nth_nth by lia. rewrite Hs. reflexivity.
  Qed.

  (** row-wise matrix-vector product loop *)
  Lemma for_range_rows (t m : nat) (A : nat -> nat -> F) (body : nat -> list F -> res (list F)) :
    (forall row s, row < t -> length s = t -> nth row s f0 = f0 ->
       body row s = Ok (set_nth s row (sumn m (fun j => A row j)))) ->
    for_range 0 t body (repeat f0 t) = Ok (map (fun i => sumn m (fun j => A i j)) (seq 0 t)).
  Proof.
    intros Hb.
    destruct (for_range_inv (fun k s => length s = t /\ forall j, j < t ->
        nth j s f0 = if j <? k then sumn m (fun c => A j c) else f0) 0 t body (repeat f0 t))
      as [s [E [Hl Hs]]].
    - lia.
    - split; [apply repeat_length|]. intros j Hj. simpl. apply nth_repeat_same.
    - intros i s Hi [Hl Hs]. rewrite Hb; [|lia|exact Hl|].
      2:{ rewrite Hs by lia. rewrite Nat.ltb_irrefl. reflexivity. }
      eexists; split; [reflexivity|]. split; [rewrite set_nth_length by lia; exact Hl|].
      intros j Hj. rewrite set_nth_nth by lia.
      destruct (Nat.eqb_spec j i) as [->|Hn].
      + destruct (Nat.ltb_spec i (S i)); [reflexivity|lia].
      + rewrite Hs by exact Hj. destruct (Nat.ltb_spec j i), (Nat.ltb_spec j (S i)); try reflexivity; lia.
    - rewrite E. f_equal. apply (list_ext f0).
      + rewrite map_length, seq_length. exact Hl.
      + intros j Hj. rewrite nth_map_seq by lia. rewrite Hs by lia.
        destruct (Nat.ltb_spec j t); [reflexivity|lia].
  Qed.

  Lemma fold_left_ext_in {A B} (f g : A -> B -> A) l a :
    (forall a b, In b l -> f a b = g a b) -> fold_left f l a = fold_left g l a.
  Proof.
    revert a; induction l as [|b l IH]; intros a H; simpl; [reflexivity|].
    rewrite H by (left; reflexivity). apply IH. intros; apply H; right; assumption.
  Qed.
End FieldLoops.
