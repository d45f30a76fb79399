(** * Base: outcomes, slices, loops, machine integers.

    Common vocabulary used to transcribe Rust functions.  Nothing here is specific
    to a file of /repo; the definitions fix the meaning of the Rust constructs the
    transcriptions use (slice indexing, [for] loops, [assert!], [unwrap],
    [rotate_right], [swap], [usize] arithmetic). *)
From Coq Require Export List Arith ZArith NArith Lia Bool.
Export ListNotations.

(** Outcome of a Rust computation: a value, a panic, or "did not finish within the
    given number of loop iterations" (used only for unbounded [loop]s). *)
Inductive res (A : Type) : Type :=
| Ok (a : A)
| Panic
| Fuel.
Arguments Ok {A} a.
Arguments Panic {A}.
Arguments Fuel {A}.

Definition bind {A B : Type} (m : res A) (k : A -> res B) : res B :=
  match m with Ok a => k a | Panic => Panic | Fuel => Fuel end.

Notation "x <- c1 ;; c2" := (bind c1 (fun x => c2))
  (at level 61, c1 at next level, right associativity).
Notation "' pat <- c1 ;; c2" := (bind c1 (fun x => match x with pat => c2 end))
  (at level 61, pat pattern, c1 at next level, right associativity).
Notation "e1 ;; e2" := (bind e1 (fun _ : unit => e2))
  (at level 61, right associativity).

(** [assert!(b)] / [assert_eq!] *)
Definition assert (b : bool) : res unit := if b then Ok tt else Panic.

(** [debug_assert!(b)]: checked only when debug assertions are on. *)
Definition debug_assert (dbg b : bool) : res unit := if dbg then assert b else Ok tt.

(** [Option::unwrap] / [expect] *)
Definition unwrap {A : Type} (o : option A) : res A :=
  match o with Some a => Ok a | None => Panic end.

(** ** Slices and vectors *)

(** [v[i]] *)
Definition idx {A : Type} (l : list A) (i : nat) : res A :=
  match nth_error l i with Some a => Ok a | None => Panic end.

Definition set_nth {A : Type} (l : list A) (i : nat) (v : A) : list A :=
  firstn i l ++ v :: skipn (S i) l.

(** [v[i] = x] *)
Definition upd {A : Type} (l : list A) (i : nat) (v : A) : res (list A) :=
  if i <? length l then Ok (set_nth l i v) else Panic.

(** [m[i][j]] *)
Definition idx2 {A : Type} (m : list (list A)) (i j : nat) : res A :=
  r <- idx m i ;; idx r j.

(** [m[i][j] = x] *)
Definition upd2 {A : Type} (m : list (list A)) (i j : nat) (v : A) : res (list (list A)) :=
  r <- idx m i ;; r' <- upd r j v ;; upd m i r'.

(** [<[T]>::rotate_right(k)] panics if [k > len]. *)
Definition rotate_right {A : Type} (l : list A) (k : nat) : res (list A) :=
  if k <=? length l
  then Ok (skipn (length l - k) l ++ firstn (length l - k) l) else Panic.

(** [<[T]>::rotate_left(k)] panics if [k > len]. *)
Definition rotate_left {A : Type} (l : list A) (k : nat) : res (list A) :=
  if k <=? length l then Ok (skipn k l ++ firstn k l) else Panic.

(** [<[T]>::swap(a, b)] *)
Definition swap {A : Type} (l : list A) (a b : nat) : res (list A) :=
  x <- idx l a ;; y <- idx l b ;; l1 <- upd l a y ;; upd l1 b x.

(** ** Loops *)

(** [for x in l { body }] *)
Fixpoint for_list {X St : Type} (l : list X) (body : X -> St -> res St) (s : St) : res St :=
  match l with
  | [] => Ok s
  | x :: l' => s' <- body x s ;; for_list l' body s'
  end.

(** [for i in lo..hi { body }] (empty when [lo >= hi]) *)
Definition for_range {St : Type} (lo hi : nat) (body : nat -> St -> res St) (s : St) : res St :=
  for_list (seq lo (hi - lo)) body s.

(** [for i in (lo..hi).rev() { body }] *)
Definition for_range_rev {St : Type} (lo hi : nat) (body : nat -> St -> res St) (s : St) : res St :=
  for_list (rev (seq lo (hi - lo))) body s.

(** Monadic [map] over a list. *)
Fixpoint mapM {X Y : Type} (f : X -> res Y) (l : list X) : res (list Y) :=
  match l with
  | [] => Ok []
  | x :: l' => y <- f x ;; ys <- mapM f l' ;; Ok (y :: ys)
  end.

(** ** [usize] arithmetic (64-bit), checked in debug builds, wrapping in release builds *)

Definition usize_mod : N := (2 ^ 64)%N.

Definition uadd (dbg : bool) (a b : nat) : res nat :=
  if (N.of_nat a + N.of_nat b <? usize_mod)%N then Ok (a + b)
  else if dbg then Panic else Ok (N.to_nat ((N.of_nat a + N.of_nat b) mod usize_mod)).

Definition usub (dbg : bool) (a b : nat) : res nat :=
  if b <=? a then Ok (a - b)
  else if dbg then Panic else Ok (N.to_nat (usize_mod + N.of_nat a - N.of_nat b)).

(** * Lemmas *)

Lemma bind_ok {A B} (m : res A) (k : A -> res B) b :
  bind m k = Ok b -> exists a, m = Ok a /\ k a = Ok b.
Proof. destruct m; simpl; intros H; try discriminate; eauto. Qed.

Lemma bind_assoc {A B C} (m : res A) (k : A -> res B) (h : B -> res C) :
  bind (bind m k) h = bind m (fun a => bind (k a) h).
Proof. destruct m; reflexivity. Qed.

Lemma bind_ok_id {A} (m : res A) : bind m (fun x => Ok x) = m.
Proof. destruct m; reflexivity. Qed.

Lemma bind_ext {A B} (m : res A) (k h : A -> res B) :
  (forall a, m = Ok a -> k a = h a) -> bind m k = bind m h.
Proof. destruct m; simpl; auto. Qed.

Lemma assert_ok b : assert b = Ok tt <-> b = true.
Proof. destruct b; simpl; split; congruence. Qed.

Lemma debug_assert_true dbg b : b = true -> debug_assert dbg b = Ok tt.
Proof. intros ->; destruct dbg; reflexivity. Qed.

Lemma idx_ok {A} (d : A) l i : i < length l -> idx l i = Ok (nth i l d).
Proof.
  intros H. unfold idx. destruct (nth_error l i) eqn:E.
  - f_equal. symmetry. apply nth_error_nth; exact E.
  - apply nth_error_None in E. lia.
Qed.

Lemma idx_panic {A} (l : list A) i : length l <= i -> idx l i = Panic.
Proof.
  intros H. unfold idx. destruct (nth_error l i) eqn:E; [|reflexivity].
  assert (nth_error l i <> None) as Hn by congruence.
  apply nth_error_Some in Hn. lia.
Qed.

Lemma idx_inv {A} (l : list A) i a : idx l i = Ok a -> i < length l.
Proof.
  intros H. destruct (Nat.lt_ge_cases i (length l)) as [L|L]; [exact L|].
  rewrite idx_panic in H by exact L. discriminate.
Qed.

Lemma idx_cases {A} (l : list A) i :
  (exists a, idx l i = Ok a /\ i < length l /\ forall d, nth i l d = a) \/
  (idx l i = Panic /\ length l <= i).
Proof.
  destruct (Nat.lt_ge_cases i (length l)) as [L|L].
  - left. destruct l as [|a0 l0]; [simpl in L; lia|].
    exists (nth i (a0 :: l0) a0). repeat split; auto.
    + apply idx_ok; exact L.
    + intros d. apply nth_indep; exact L.
  - right. split; [apply idx_panic; exact L | exact L].
Qed.

Lemma set_nth_length {A} (l : list A) i v : i < length l -> length (set_nth l i v) = length l.
Proof.
  intros H. unfold set_nth. rewrite app_length. cbn [length].
  rewrite firstn_length, skipn_length. lia.
Qed.

Lemma set_nth_nth {A} (l : list A) i v d j :
  i < length l -> nth j (set_nth l i v) d = if j =? i then v else nth j l d.
Proof.
  intros H. unfold set_nth.
  assert (Hf : length (firstn i l) = i) by (rewrite firstn_length; lia).
  destruct (Nat.eqb_spec j i) as [->|Hn].
  - rewrite app_nth2 by lia. rewrite Hf, Nat.sub_diag. reflexivity.
  - destruct (Nat.lt_ge_cases j i) as [L|L].
    + rewrite app_nth1 by lia. rewrite <- (firstn_skipn i l) at 2.
      rewrite app_nth1 by lia. reflexivity.
    + rewrite app_nth2 by lia. rewrite Hf.
      replace (j - i) with (S (j - S i)) by lia. cbn [nth].
      rewrite <- (firstn_skipn (S i) l) at 2.
      rewrite app_nth2 by (rewrite firstn_length; lia).
      f_equal. rewrite firstn_length. lia.
Qed.

Lemma upd_ok {A} (l : list A) i v : i < length l -> upd l i v = Ok (set_nth l i v).
Proof. intros H. unfold upd. apply Nat.ltb_lt in H. rewrite H. reflexivity. Qed.

Lemma upd_panic {A} (l : list A) i v : length l <= i -> upd l i v = Panic.
Proof. intros H. unfold upd. apply Nat.ltb_ge in H. rewrite H. reflexivity. Qed.

Lemma upd_inv {A} (l l' : list A) i v :
  upd l i v = Ok l' -> i < length l /\ l' = set_nth l i v.
Proof.
  unfold upd. destruct (Nat.ltb_spec i (length l)); intros E; inversion E; auto.
Qed.

Lemma list_ext {A} (d : A) (l1 l2 : list A) :
  length l1 = length l2 -> (forall i, i < length l1 -> nth i l1 d = nth i l2 d) -> l1 = l2.
Proof. intros Hl Hn. apply (nth_ext l1 l2 d d Hl Hn). Qed.

Lemma nth_map_seq {A} (f : nat -> A) d n i : i < n -> nth i (map f (seq 0 n)) d = f i.
Proof.
  intros H. rewrite (nth_indep _ d (f 0)) by (rewrite map_length, seq_length; exact H).
  rewrite map_nth. rewrite seq_nth by exact H. reflexivity.
Qed.

Lemma map_seq_ext {A} (f g : nat -> A) n :
  (forall i, i < n -> f i = g i) -> map f (seq 0 n) = map g (seq 0 n).
Proof.
  intros H. apply map_ext_in. intros i Hi. apply in_seq in Hi. apply H. lia.
Qed.

Lemma list_as_map {A} (d : A) (l : list A) : l = map (fun i => nth i l d) (seq 0 (length l)).
Proof.
  apply (list_ext d).
  - rewrite map_length, seq_length. reflexivity.
  - intros i Hi. rewrite nth_map_seq by exact Hi. reflexivity.
Qed.

Lemma nth_repeat_lt {A} (a d : A) n i : i < n -> nth i (repeat a n) d = a.
Proof.
  revert i; induction n as [|n IH]; intros i H; [lia|].
  destruct i; simpl; [reflexivity | apply IH; lia].
Qed.

Lemma nth_repeat_same {A} (d : A) n i : nth i (repeat d n) d = d.
Proof. revert i; induction n as [|n IH]; intros [|i]; simpl; auto. Qed.

(** ** loop rules *)

Lemma for_list_app {X St} (l1 l2 : list X) body (s : St) :
  for_list (l1 ++ l2) body s = bind (for_list l1 body s) (for_list l2 body).
Proof.
  revert s; induction l1 as [|x l1 IH]; intros s; simpl.
  - reflexivity.
  - destruct (body x s); simpl; auto.
Qed.

Lemma for_list_ext {X St} (l : list X) b1 b2 (s : St) :
  (forall x s, In x l -> b1 x s = b2 x s) -> for_list l b1 s = for_list l b2 s.
Proof.
  revert s; induction l as [|x l IH]; intros s H; simpl; [reflexivity|].
  rewrite H by (left; reflexivity). apply bind_ext. intros a _.
  apply IH. intros y s' Hy. apply H. right; exact Hy.
Qed.

Lemma for_range_empty {St} lo hi body (s : St) : hi <= lo -> for_range lo hi body s = Ok s.
Proof. intros H. unfold for_range. replace (hi - lo) with 0 by lia. reflexivity. Qed.

Lemma for_range_step {St} lo hi body (s : St) :
  lo < hi -> for_range lo hi body s = bind (body lo s) (for_range (S lo) hi body).
Proof.
  intros H. unfold for_range. replace (hi - lo) with (S (hi - S lo)) by lia. reflexivity.
Qed.

Lemma for_range_last {St} lo hi body (s : St) :
  lo <= hi -> for_range lo (S hi) body s = bind (for_range lo hi body s) (body hi).
Proof.
  intros H. unfold for_range. replace (S hi - lo) with (S (hi - lo)) by lia.
  rewrite seq_S, for_list_app. replace (lo + (hi - lo)) with hi by lia.
  apply bind_ext. intros a _. simpl. apply bind_ok_id.
Qed.

Lemma for_range_ext {St} lo hi b1 b2 (s : St) :
  (forall i s, lo <= i < hi -> b1 i s = b2 i s) -> for_range lo hi b1 s = for_range lo hi b2 s.
Proof.
  intros H. apply for_list_ext. intros x s' Hx. apply in_seq in Hx. apply H. lia.
Qed.

Lemma for_range_rev_empty {St} lo hi body (s : St) :
  hi <= lo -> for_range_rev lo hi body s = Ok s.
Proof. intros H. unfold for_range_rev. replace (hi - lo) with 0 by lia. reflexivity. Qed.

Lemma for_range_rev_step {St} lo hi body (s : St) :
  lo <= hi -> for_range_rev lo (S hi) body s = bind (body hi s) (for_range_rev lo hi body).
Proof.
  intros H. unfold for_range_rev. replace (S hi - lo) with (S (hi - lo)) by lia.
  rewrite seq_S, rev_app_distr. replace (lo + (hi - lo)) with hi by lia. reflexivity.
Qed.

Lemma for_range_inv {St} (P : nat -> St -> Prop) lo hi body s0 :
  lo <= hi -> P lo s0 ->
  (forall i s, lo <= i < hi -> P i s -> exists s', body i s = Ok s' /\ P (S i) s') ->
  exists s', for_range lo hi body s0 = Ok s' /\ P hi s'.
Proof.
  intros Hle HP Hb. induction Hle as [|hi Hle IH].
  - exists s0. rewrite for_range_empty by lia. auto.
  - destruct IH as [s1 [E1 P1]].
    { intros i s Hi. apply Hb. lia. }
    destruct (Hb hi s1) as [s2 [E2 P2]]; [lia | exact P1 |].
    exists s2. rewrite for_range_last by exact Hle. rewrite E1. simpl. auto.
Qed.

Lemma for_range_rev_inv {St} (P : nat -> St -> Prop) lo hi body s0 :
  lo <= hi -> P hi s0 ->
  (forall i s, lo <= i < hi -> P (S i) s -> exists s', body i s = Ok s' /\ P i s') ->
  exists s', for_range_rev lo hi body s0 = Ok s' /\ P lo s'.
Proof.
  intros Hle. revert s0. induction Hle as [|hi Hle IH]; intros s0 HP Hb.
  - exists s0. rewrite for_range_rev_empty by lia. auto.
  - destruct (Hb hi s0) as [s1 [E1 P1]]; [lia | exact HP |].
    destruct (IH s1 P1) as [s2 [E2 P2]].
    { intros i s Hi. apply Hb. lia. }
    exists s2. rewrite for_range_rev_step by exact Hle. rewrite E1. simpl. auto.
Qed.

(** Pure bodies: the loop is a [fold_left]. *)
Lemma for_list_pure {X St} (l : list X) (f : X -> St -> St) s :
  for_list l (fun x s => Ok (f x s)) s = Ok (fold_left (fun s x => f x s) l s).
Proof. revert s; induction l as [|x l IH]; intros s; simpl; auto. Qed.

Lemma for_list_ok_pure {X St} (l : list X) (body : X -> St -> res St) (f : X -> St -> St)
      (I : St -> Prop) s :
  I s -> (forall x s, In x l -> I s -> body x s = Ok (f x s) /\ I (f x s)) ->
  for_list l body s = Ok (fold_left (fun s x => f x s) l s) /\
  I (fold_left (fun s x => f x s) l s).
Proof.
  revert s; induction l as [|x l IH]; intros s Hs H; simpl; [auto|].
  destruct (H x s) as [E Hi]; [left; reflexivity | exact Hs |].
  rewrite E. simpl. apply IH; [exact Hi|]. intros y s' Hy. apply H. right; exact Hy.
Qed.

Lemma mapM_ok {X Y} (f : X -> res Y) (g : X -> Y) l :
  (forall x, In x l -> f x = Ok (g x)) -> mapM f l = Ok (map g l).
Proof.
  induction l as [|x l IH]; intros H; simpl; [reflexivity|].
  rewrite H by (left; reflexivity). simpl. rewrite IH; [reflexivity|].
  intros y Hy. apply H. right; exact Hy.
Qed.

Lemma mapM_length {X Y} (f : X -> res Y) l ys : mapM f l = Ok ys -> length ys = length l.
Proof.
  revert ys; induction l as [|x l IH]; intros ys H; simpl in H.
  - inversion H; reflexivity.
  - apply bind_ok in H. destruct H as [y [_ H]]. apply bind_ok in H.
    destruct H as [zs [E H]]. inversion H; subst. simpl. f_equal. apply IH; exact E.
Qed.

Lemma usub_ok dbg a b : b <= a -> usub dbg a b = Ok (a - b).
Proof. intros H. unfold usub. apply Nat.leb_le in H. rewrite H. reflexivity. Qed.

Lemma uadd_ok dbg a b :
  (N.of_nat a + N.of_nat b < usize_mod)%N -> uadd dbg a b = Ok (a + b).
Proof. intros H. unfold uadd. apply N.ltb_lt in H. rewrite H. reflexivity. Qed.

Ltac inv_ok H :=
  match type of H with
  | bind _ _ = Ok _ => let a := fresh "a" in let E := fresh "E" in
      apply bind_ok in H; destruct H as [a [E H]]
  end.
