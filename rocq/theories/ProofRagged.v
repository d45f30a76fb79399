(** * ProofRagged: proofs about matrices with rows of different lengths *)
From Verif Require Import Base Field Spec ModelUtils ModelPoseidon2 ModelPoseidon SpecRagged
  ProofMatHelpers ProofMatInverse ProofTotal ProofPoseidonFin LoopLemmas MatLoops.

Definition rmap {A B} (f : A -> B) (r : res A) : res B := bind r (fun x => Ok (f x)).

Definition zipapp {F} (m S : list (list F)) : list (list F) :=
  map (fun p => fst p ++ snd p) (combine m S).

Definition sq {F} (n : nat) (m : list (list F)) : Prop :=
  length m = n /\ Forall (fun r => length r = n) m.

Lemma zipapp_length {F} (m S : list (list F)) : length m = length S -> length (zipapp m S) = length S.
Proof. intros H. unfold zipapp. rewrite map_length, combine_length. lia. Qed.

Lemma idx_zipapp {F} (m S : list (list F)) i :
  length m = length S ->
  idx (zipapp m S) i = match nth_error m i, nth_error S i with
                       | Some a, Some b => Ok (a ++ b) | _, _ => Panic end.
Proof.
  intros H. unfold idx, zipapp. revert S i H.
  induction m as [|a m IH]; intros [|b S] i H; simpl in *; try discriminate; destruct i; simpl; auto.
Qed.

Lemma sq_nth {F} n (m : list (list F)) i r : sq n m -> nth_error m i = Some r -> length r = n.
Proof. intros [_ H] E. rewrite Forall_forall in H. apply H. eapply nth_error_In; eauto. Qed.

Lemma nth_error_pair {F} (m S : list (list F)) i a :
  length m = length S -> nth_error m i = Some a -> exists b, nth_error S i = Some b.
Proof.
  intros H E. destruct (nth_error S i) as [b|] eqn:E2; [eauto|].
  apply nth_error_None in E2. assert (i < length m) by (apply nth_error_Some; congruence). lia.
Qed.

Lemma idx_app {A} (a b : list A) j : j < length a -> idx (a ++ b) j = idx a j.
Proof. intros H. unfold idx. rewrite nth_error_app1 by exact H. reflexivity. Qed.

Lemma set_nth_app {A} (a b : list A) j v : j < length a -> set_nth (a ++ b) j v = set_nth a j v ++ b.
Proof.
  intros H. unfold set_nth. rewrite firstn_app, skipn_app.
  replace (j - length a) with 0 by lia. replace (S j - length a) with 0 by lia.
  simpl. rewrite app_nil_r, <- app_assoc. reflexivity.
Qed.

Lemma set_nth_zipapp {F} (m S : list (list F)) i r b :
  length m = length S -> nth_error S i = Some b ->
  set_nth (zipapp m S) i (r ++ b) = zipapp (set_nth m i r) S.
Proof.
  revert S i. induction m as [|a m IH]; intros [|s S] i H E; simpl in *; try discriminate.
  - destruct i; discriminate.
  - destruct i as [|i]; simpl in E.
    + injection E as ->. reflexivity.
    + change (zipapp (a :: m) (s :: S)) with ((a ++ s) :: zipapp m S).
      change (set_nth (a :: m) (Datatypes.S i) r) with (a :: set_nth m i r).
      change (set_nth ((a ++ s) :: zipapp m S) (Datatypes.S i) (r ++ b))
        with ((a ++ s) :: set_nth (zipapp m S) i (r ++ b)).
      rewrite IH; auto.
Qed.

Lemma Forall_skipn1 {X} (P : X -> Prop) (l : list X) i : Forall P (skipn i l) -> Forall P (skipn (S i) l).
Proof.
  revert l. induction i as [|i IH]; intros [|a l] H; try exact H.
  - simpl in *. inversion H; assumption.
  - apply (IH l). exact H.
Qed.

Section Sim.
  Context {F : Type} {Fo : FOps F}.
  Variable n : nat.
  Variable S0 : list (list F).
  Hypothesis HS : length S0 = n.

  Lemma idx2_zip m i j : sq n m -> j < n -> idx2 (zipapp m S0) i j = idx2 m i j.
  Proof.
    intros Hm Hj. unfold idx2. rewrite idx_zipapp by (destruct Hm; lia). unfold idx at 2.
    destruct (nth_error m i) as [a|] eqn:E; [|reflexivity].
    destruct (nth_error_pair m S0 i a) as [b Eb]; [destruct Hm; lia|exact E|].
    rewrite Eb. cbn [bind]. apply idx_app. rewrite (sq_nth n m i a Hm E). exact Hj.
  Qed.

  Lemma upd2_zip m i j v : sq n m -> j < n ->
    upd2 (zipapp m S0) i j v = rmap (fun m => zipapp m S0) (upd2 m i j v).
  Proof.
    intros Hm Hj. unfold upd2. rewrite idx_zipapp by (destruct Hm; lia). unfold idx.
    destruct (nth_error m i) as [a|] eqn:E; [|reflexivity].
    destruct (nth_error_pair m S0 i a) as [b Eb]; [destruct Hm; lia|exact E|].
    rewrite Eb. cbn [bind]. pose proof (sq_nth n m i a Hm E) as La.
    assert (Hi : i < length m) by (apply nth_error_Some; congruence).
    rewrite !upd_ok by (rewrite ?app_length; lia). cbn [bind].
    rewrite !upd_ok by (rewrite ?zipapp_length; destruct Hm; lia). cbn.
    rewrite set_nth_app by lia. f_equal. apply set_nth_zipapp; [destruct Hm; lia|exact Eb].
  Qed.

  Lemma upd2_sq (m : list (list F)) i j v m' : sq n m -> upd2 m i j v = Ok m' -> sq n m'.
  Proof.
    intros Hm. unfold upd2, idx. destruct (nth_error m i) as [a|] eqn:E; [|discriminate]. cbn [bind].
    pose proof (sq_nth n m i a Hm E) as La. unfold upd.
    destruct (j <? length a) eqn:Ej; [|discriminate]. cbn [bind]. apply Nat.ltb_lt in Ej.
    destruct (i <? length m) eqn:Ei; [|discriminate]. intros H. injection H as <-. apply Nat.ltb_lt in Ei.
    destruct Hm as [L Hf]. split; [rewrite set_nth_length; lia|].
    unfold set_nth at 1. rewrite <- (firstn_skipn i m) in Hf. apply Forall_app in Hf. destruct Hf as [H1 H2].
    apply Forall_app. split; [exact H1|]. constructor; [rewrite set_nth_length; lia|].
    apply Forall_skipn1. exact H2.
  Qed.

  Definition St := (list (list F) * list (list F))%type.
  Definition A (s : St) : St := (zipapp (fst s) S0, snd s).
  Definition sim (f : St -> res St) : Prop :=
    forall s, sq n (fst s) -> f (A s) = rmap A (f s) /\ forall s', f s = Ok s' -> sq n (fst s').

  Lemma sim_list {X} (l : list X) (f : X -> St -> res St) :
    (forall x, In x l -> sim (f x)) -> sim (for_list l f).
  Proof.
    induction l as [|x l IH]; intros H s Hs; cbn [for_list].
    - split; [reflexivity|]. intros s' E. injection E as <-. exact Hs.
    - destruct (H x (or_introl eq_refl) s Hs) as [E1 E2]. rewrite E1.
      destruct (f x s) as [s1| |]; cbn [rmap bind]; try (split; [reflexivity|discriminate]).
      apply IH; [intros y Hy; apply H; right; exact Hy|]. apply E2. reflexivity.
  Qed.

  Lemma sim_range lo hi (f : nat -> St -> res St) :
    (forall i, lo <= i < hi -> sim (f i)) -> sim (for_range lo hi f).
  Proof. intros H. apply sim_list. intros i Hi. apply in_seq in Hi. apply H. lia. Qed.

  Lemma sim_range_rev lo hi (f : nat -> St -> res St) :
    (forall i, lo <= i < hi -> sim (f i)) -> sim (for_range_rev lo hi f).
  Proof. intros H. apply sim_list. intros i Hi. apply in_rev in Hi. apply in_seq in Hi. apply H. lia. Qed.

  Lemma rm_bind {X Y} (r : res (list (list F))) (k : list (list F) -> res X) (h : X -> Y) k' :
    (forall m, r = Ok m -> k' (zipapp m S0) = rmap h (k m)) ->
    bind (rmap (fun m => zipapp m S0) r) k' = rmap h (bind r k).
  Proof. destruct r; cbn; intros H; auto. Qed.

  Lemma same_bind {X Y Z} (r : res Z) (k : Z -> res X) (h : X -> Y) k' :
    (forall m, r = Ok m -> k' m = rmap h (k m)) -> bind r k' = rmap h (bind r k).
  Proof. destruct r; cbn; intros H; auto. Qed.

  Lemma sim_down_col row j el col : j < n -> col < n -> sim (mi_down_col row j el col).
  Proof.
    intros Hj Hc [m inv] Hs. cbn [fst] in Hs. unfold mi_down_col, A. cbn [fst snd]. split.
    - assert (E : (if col <? j then upd2 (zipapp m S0) row col f0
           else tmp <- idx2 (zipapp m S0) j col ;; x <- idx2 (zipapp m S0) row col ;;
                upd2 (zipapp m S0) row col (fsub x (fmul tmp el)))
           = rmap (fun m => zipapp m S0) (if col <? j then upd2 m row col f0
           else tmp <- idx2 m j col ;; x <- idx2 m row col ;;
                upd2 m row col (fsub x (fmul tmp el)))).
      { destruct (col <? j); [apply upd2_zip; assumption|]. rewrite !idx2_zip by assumption.
        apply same_bind; intros t _. apply same_bind; intros x _. apply upd2_zip; assumption. }
      rewrite E. apply rm_bind. intros m' _. apply same_bind. intros i' _. reflexivity.
    - intros s' H. apply bind_ok in H. destruct H as (m' & H1 & H2).
      apply bind_ok in H2. destruct H2 as (i' & H2 & H3). injection H3 as <-. cbn [fst].
      destruct (col <? j); [eapply upd2_sq; eauto|].
      apply bind_ok in H1. destruct H1 as (t & _ & H1). apply bind_ok in H1. destruct H1 as (x & _ & H1).
      eapply upd2_sq; eauto.
  Qed.

  Lemma sim_el row j (k : F -> St -> res St) : j < n -> (forall el, sim (k el)) ->
    sim (fun st => el <- idx2 (fst st) row j ;; k el st).
  Proof.
    intros Hj Hk s Hs. unfold A at 1. cbn [fst]. rewrite idx2_zip by assumption. split.
    - apply same_bind. intros el _. apply Hk. exact Hs.
    - intros s' H. apply bind_ok in H. destruct H as (el & _ & H). eapply Hk; eauto.
  Qed.

  Lemma sim_down_j row j : j < n -> sim (mi_down_j n row j).
  Proof. intros Hj. apply sim_el; [exact Hj|]. intros el. apply sim_range. intros i Hi. apply sim_down_col; lia. Qed.

  Lemma sim_scale_col row el col : col < n -> sim (mi_scale_col row el col).
  Proof.
    intros Hc [m inv] Hs. cbn [fst] in Hs. unfold mi_scale_col, A. cbn [fst snd].
    destruct (Nat.compare col row); split.
    - rewrite upd2_zip by assumption. apply rm_bind. intros m' _. apply same_bind. intros x _.
      apply same_bind. intros i' _. reflexivity.
    - intros s' H. apply bind_ok in H. destruct H as (m' & H1 & H). apply bind_ok in H. destruct H as (x & _ & H).
      apply bind_ok in H. destruct H as (i' & _ & H). injection H as <-. eapply upd2_sq; eauto.
    - apply same_bind. intros x _. apply same_bind. intros i' _. reflexivity.
    - intros s' H. apply bind_ok in H. destruct H as (x & _ & H).
      apply bind_ok in H. destruct H as (i' & _ & H). injection H as <-. exact Hs.
    - rewrite idx2_zip by assumption. apply same_bind. intros x _. rewrite upd2_zip by assumption.
      apply rm_bind. intros m' _. reflexivity.
    - intros s' H. apply bind_ok in H. destruct H as (x & _ & H).
      apply bind_ok in H. destruct H as (m' & H1 & H). injection H as <-. eapply upd2_sq; eauto.
  Qed.

  Lemma sim_bind f g : sim f -> sim g -> sim (fun st => st <- f st ;; g st).
  Proof.
    intros Hf Hg s Hs. destruct (Hf s Hs) as [E1 E2]. cbn beta. rewrite E1.
    destruct (f s) as [s1| |]; cbn [rmap bind]; try (split; [reflexivity|discriminate]).
    apply Hg. apply E2. reflexivity.
  Qed.

  Lemma sim_down_row row : row < n -> sim (mi_down_row n row).
  Proof.
    intros Hr. unfold mi_down_row.
    apply (sim_bind (for_range 0 row (mi_down_j n row))
            (fun st => d <- idx2 (fst st) row row ;; el_inv <- unwrap (finverse d) ;;
                       for_range 0 n (mi_scale_col row el_inv) st)).
    - apply sim_range. intros j Hj. apply sim_down_j. lia.
    - apply (sim_el row row (fun d st => el_inv <- unwrap (finverse d) ;; for_range 0 n (mi_scale_col row el_inv) st)); [exact Hr|].
      intros d. destruct (finverse d) as [e|]; cbn [unwrap bind].
      + apply sim_range. intros c Hc. apply sim_scale_col. lia.
      + intros s _. split; [reflexivity|discriminate].
  Qed.

  Lemma sim_up_col dbg row j el col : col < n -> sim (mi_up_col dbg row j el col).
  Proof.
    intros Hc [m inv] Hs. cbn [fst] in Hs. unfold mi_up_col, A. cbn [fst snd]. split.
    - assert (E : (if dbg && (j <=? col) then upd2 (zipapp m S0) row col f0 else Ok (zipapp m S0))
               = rmap (fun m => zipapp m S0) (if dbg && (j <=? col) then upd2 m row col f0 else Ok m)).
      { destruct (dbg && (j <=? col)); [apply upd2_zip; assumption|reflexivity]. }
      rewrite E. apply rm_bind. intros m' _. apply same_bind. intros t _. apply same_bind. intros x _.
      apply same_bind. intros i' _. reflexivity.
    - intros s' H. apply bind_ok in H. destruct H as (m' & H1 & H). apply bind_ok in H. destruct H as (t & _ & H).
      apply bind_ok in H. destruct H as (x & _ & H). apply bind_ok in H. destruct H as (i' & _ & H).
      injection H as <-. cbn [fst]. destruct (dbg && (j <=? col)); [eapply upd2_sq; eauto|].
      injection H1 as <-. exact Hs.
  Qed.

  Lemma sim_up_row dbg row : sim (mi_up_row dbg n row).
  Proof.
    apply sim_range_rev. intros j Hj. apply sim_el; [lia|]. intros el. apply sim_range. intros c Hc.
    apply sim_up_col. lia.
  Qed.

  Lemma sim_all dbg : sim (fun st => st <- for_range 0 n (mi_down_row n) st ;; for_range_rev 0 n (mi_up_row dbg n) st).
  Proof.
    apply sim_bind; [apply sim_range; intros; apply sim_down_row; lia|apply sim_range_rev; intros; apply sim_up_row].
  Qed.
End Sim.

Section Top.
  Context {F : Type} {Fo : FOps F}.

  Lemma zip_split n (m : list (list F)) : m = zipapp (narrow n m) (map (skipn n) m).
  Proof.
    unfold zipapp, narrow. induction m as [|r m IH]; [reflexivity|]. cbn. rewrite firstn_skipn. f_equal. exact IH.
  Qed.

  Lemma narrow_sq n (m : list (list F)) : wide n m -> sq n (narrow n m).
  Proof.
    intros (L & _ & H). split; [unfold narrow; rewrite map_length; exact L|].
    apply Forall_forall. intros r Hr. apply in_map_iff in Hr. destruct Hr as (r0 & <- & Hr).
    destruct (In_nth _ _ [] Hr) as (i & Hi & <-). rewrite firstn_length. specialize (H i ltac:(lia)). lia.
  Qed.

  Lemma narrow_nth n (m : list (list F)) i : nth i (narrow n m) [] = firstn n (nth i m []).
  Proof. unfold narrow. rewrite <- (@firstn_nil F n) at 1. apply map_nth. Qed.

  Lemma narrow_dims n (m : list (list F)) : wide n m -> dims n n (narrow n m).
  Proof.
    intros (L & _ & H). split; [unfold narrow; rewrite map_length; exact L|].
    intros i Hi. rewrite narrow_nth, firstn_length. specialize (H i Hi). lia.
  Qed.

  Lemma idx_narrow0 n (m : list (list F)) : wide n m -> 0 < n -> idx (narrow n m) 0 = idx m 0.
  Proof.
    intros (L & H0 & H) Hn. rewrite !(idx_ok []) by (unfold narrow; rewrite ?map_length; lia).
    rewrite narrow_nth, firstn_all2 by lia. reflexivity.
  Qed.

  (** one loop nest of the final check *)
  Lemma unit_loop {X} (l : list X) (f : X -> unit -> res unit) :
    for_list l f tt = Ok tt <-> forall x, In x l -> f x tt = Ok tt.
  Proof.
    induction l as [|a l IH]; cbn [for_list]; [split; [intros _ x []|reflexivity]|]. split.
    - intros H x [<-|Hx].
      + destruct (f a tt) as [[]| |]; cbn in H; [reflexivity|discriminate|discriminate].
      + destruct (f a tt) as [[]| |]; cbn in H; try discriminate. apply IH; assumption.
    - intros H. rewrite (H a (or_introl eq_refl)). cbn [bind]. apply IH. intros x Hx. apply H. right. exact Hx.
  Qed.

  Lemma in_enum {X} (d : X) (l : list X) i x :
    In (i, x) (combine (seq 0 (length l)) l) <-> i < length l /\ x = nth i l d.
  Proof.
    split.
    - intros H. destruct (In_nth _ _ (0, d) H) as (k & Hk & E).
      rewrite combine_length, seq_length, Nat.min_id in Hk.
      rewrite combine_nth in E by (rewrite seq_length; reflexivity). rewrite seq_nth in E by exact Hk.
      injection E as <- <-. auto.
    - intros [Hi ->]. replace (i, nth i l d) with (nth i (combine (seq 0 (length l)) l) (0, d)).
      + apply nth_In. rewrite combine_length, seq_length, Nat.min_id. exact Hi.
      + rewrite combine_nth by (rewrite seq_length; reflexivity). rewrite seq_nth by exact Hi. reflexivity.
  Qed.

  Lemma check_ok (m : list (list F)) : mi_debug_check true m = Ok tt <->
    forall i j, i < length m -> j < length (nth i m []) ->
      feqb (nth j (nth i m []) f0) (if i =? j then f1 else f0) = true.
  Proof.
    unfold mi_debug_check. rewrite unit_loop. split.
    - intros H i j Hi Hj. specialize (H (i, nth i m [])). cbn beta iota in H.
      rewrite (in_enum []) in H. specialize (H (conj Hi eq_refl)). rewrite unit_loop in H.
      specialize (H (j, nth j (nth i m []) f0)). rewrite (in_enum f0) in H. specialize (H (conj Hj eq_refl)). cbn beta iota in H.
      destruct (i =? j); apply assert_ok in H; exact H.
    - intros H [i r] Hr. apply (in_enum []) in Hr. destruct Hr as [Hi ->]. apply unit_loop.
      intros [j v] Hv. apply (in_enum f0) in Hv. destruct Hv as [Hj ->]. specialize (H i j Hi Hj).
      destruct (i =? j); unfold debug_assert; rewrite H; reflexivity.
  Qed.

  Lemma check_ends (m : list (list F)) : mi_debug_check true m = Ok tt \/ mi_debug_check true m = Panic.
  Proof.
    destruct (ends_cases (mi_debug_check true m)) as [[[] E]|E]; [|left; exact E|right; exact E].
    unfold mi_debug_check. ends.
  Qed.

  Lemma nth_zip n (m S : list (list F)) i : sq n m -> length S = n -> i < n -> nth i (zipapp m S) [] = nth i m [] ++ nth i S [].
  Proof.
    intros [L _] HS Hi. unfold zipapp.
    rewrite (nth_indep _ [] (fst ([] : list F, [] : list F) ++ snd ([] : list F, [] : list F)))
      by (rewrite map_length, combine_length; lia).
    rewrite (map_nth (fun p => fst p ++ snd p)), combine_nth by lia. reflexivity.
  Qed.

  Lemma sq_row n (m : list (list F)) i : sq n m -> i < n -> length (nth i m []) = n.
  Proof. intros [L H] Hi. rewrite Forall_forall in H. apply H. apply nth_In. lia. Qed.

  Lemma check_zip_zero n (m S : list (list F)) : is_field Fo -> sq n m -> length S = n ->
    (forall i j, i < n -> j < length (nth i S []) -> nth j (nth i S []) f0 = f0) ->
    mi_debug_check true (zipapp m S) = mi_debug_check true m.
  Proof.
    intros HF Hm HS HZ. assert (Lz : length (zipapp m S) = n) by (rewrite zipapp_length; destruct Hm; lia).
    assert (Lm : length m = n) by (destruct Hm; assumption).
    assert (E : mi_debug_check true (zipapp m S) = Ok tt <-> mi_debug_check true m = Ok tt).
    { rewrite !check_ok, Lz, Lm. split; intros H i j Hi Hj.
      - specialize (H i j Hi). rewrite (nth_zip n) in H by assumption. rewrite app_length in H.
        specialize (H ltac:(lia)). rewrite app_nth1 in H by exact Hj. exact H.
      - rewrite (nth_zip n) in * by assumption. rewrite app_length in Hj. pose proof (sq_row n m i Hm Hi) as Lr.
        destruct (Nat.lt_ge_cases j n) as [Hjn|Hjn].
        + rewrite app_nth1 by lia. apply H; lia.
        + rewrite app_nth2 by lia. rewrite HZ by lia. destruct (Nat.eqb_spec i j); [lia|]. apply HF. reflexivity. }
    destruct (check_ends (zipapp m S)) as [E1|E1], (check_ends m) as [E2|E2]; rewrite ?E1, ?E2 in *; try reflexivity.
    - destruct E as [E _]. rewrite E by reflexivity. reflexivity.
    - destruct E as [_ E]. rewrite E by reflexivity. reflexivity.
  Qed.

  Lemma check_zip_bad n (m S : list (list F)) i j : is_field Fo -> sq n m -> length S = n ->
    i < n -> j < length (nth i S []) -> nth j (nth i S []) f0 <> f0 ->
    mi_debug_check true (zipapp m S) = Panic.
  Proof.
    intros HF Hm HS Hi Hj HZ. destruct (check_ends (zipapp m S)) as [E|E]; [exfalso|exact E].
    rewrite check_ok in E. specialize (E i (n + j)). rewrite (nth_zip n), app_length, (sq_row n) in E by assumption.
    rewrite zipapp_length in E by (destruct Hm; lia). specialize (E ltac:(lia) ltac:(lia)).
    rewrite app_nth2 in E by (rewrite (sq_row n) by assumption; lia). rewrite (sq_row n) in E by assumption.
    replace (n + j - n) with j in E by lia. destruct (Nat.eqb_spec i (n + j)); [lia|]. apply HF in E. contradiction.
  Qed.

  (** the elimination on a wide matrix *)
  Lemma mat_inverse_wide dbg n (m : list (list F)) : wide n m -> 0 < n ->
    (forall m', sq n m' -> mi_debug_check dbg (zipapp m' (map (skipn n) m)) = mi_debug_check dbg m') ->
    mat_inverse dbg m = mat_inverse dbg (narrow n m).
  Proof.
    intros Hw Hn Hc. pose proof (narrow_sq n m Hw) as Hs. assert (L : length m = n) by (destruct Hw; assumption).
    unfold mat_inverse. rewrite (idx_narrow0 n m Hw Hn). replace (length (narrow n m)) with (length m) by (unfold narrow; rewrite map_length; reflexivity).
    rewrite L. apply bind_ext. intros r0 _. apply bind_ext. intros [] _. apply bind_ext. intros inv _.
    assert (HS : length (map (skipn n) m) = n) by (rewrite map_length; exact L).
    destruct (sim_all n (map (skipn n) m) HS dbg (narrow n m, inv) Hs) as [E1 E2].
    unfold A in E1 at 1. cbn [fst snd] in E1. rewrite <- zip_split in E1.
    set (K := fun st : St => mi_debug_check dbg (fst st) ;; Ok (snd st)).
    rewrite <- (bind_assoc (for_range 0 n (mi_down_row n) (m, inv)) (fun st => for_range_rev 0 n (mi_up_row dbg n) st) K).
    rewrite <- (bind_assoc (for_range 0 n (mi_down_row n) (narrow n m, inv)) (fun st => for_range_rev 0 n (mi_up_row dbg n) st) K).
    rewrite E1. unfold K.
    destruct (bind (for_range 0 n (mi_down_row n) (narrow n m, inv)) (fun st => for_range_rev 0 n (mi_up_row dbg n) st)) as [st| |]; [|reflexivity|reflexivity].
    cbn [rmap bind]. unfold A. cbn [fst snd]. rewrite Hc by (apply E2; reflexivity). reflexivity.
  Qed.

  Lemma surplus_nth n (m : list (list F)) i j : nth j (nth i (map (skipn n) m) []) f0 = nth (n + j) (nth i m []) f0.
  Proof.
    rewrite <- (@skipn_nil F n) at 1. rewrite map_nth. rewrite <- (firstn_skipn n (nth i m [])) at 2.
    destruct (Nat.le_gt_cases n (length (nth i m []))) as [H|H].
    - rewrite app_nth2 by (rewrite firstn_length; lia). rewrite firstn_length. f_equal. lia.
    - rewrite skipn_all2 by lia. rewrite app_nil_r, !nth_overflow; [reflexivity|rewrite firstn_length; lia|cbn; lia].
  Qed.

  Lemma surplus_len n (m : list (list F)) i : length (nth i (map (skipn n) m) []) = length (nth i m []) - n.
  Proof. rewrite <- (@skipn_nil F n) at 1. rewrite map_nth, skipn_length. reflexivity. Qed.

  Lemma wide0 (m : list (list F)) : wide 0 m -> m = [].
  Proof. intros (L & _). destruct m; [reflexivity|discriminate]. Qed.

  Lemma mat_inverse_surplus dbg n (m : list (list F)) : is_field Fo -> wide n m ->
    (dbg = true -> surplus_zero n m) -> mat_inverse dbg m = mat_inverse dbg (narrow n m).
  Proof.
    intros HF Hw HZ. destruct n as [|n]; [apply wide0 in Hw; subst; reflexivity|].
    apply mat_inverse_wide; [exact Hw|lia|]. intros st Hs. destruct dbg; [|reflexivity].
    assert (L : length m = S n) by (destruct Hw; assumption).
    apply (check_zip_zero (S n)); [exact HF|exact Hs|rewrite map_length; exact L|].
    intros i j Hi Hj. rewrite surplus_nth. rewrite surplus_len in Hj. apply HZ; [reflexivity|lia|lia].
  Qed.

  Lemma zero_dec n (m : list (list F)) : is_field Fo -> ~ surplus_zero n m ->
    exists i j, i < length m /\ n <= j < length (nth i m []) /\ nth j (nth i m []) f0 <> f0.
  Proof.
    intros HF H.
    set (bad := fun p : nat * nat => (n <=? snd p) && negb (feqb (nth (snd p) (nth (fst p) m []) f0) f0)).
    set (l := flat_map (fun i => map (fun j => (i, j)) (seq 0 (length (nth i m [])))) (seq 0 (length m))).
    destruct (existsb bad l) eqn:E.
    - apply existsb_exists in E. destruct E as ([i j] & Hin & Hb). unfold l in Hin. apply in_flat_map in Hin.
      destruct Hin as (i' & Hi & Hj). apply in_map_iff in Hj. destruct Hj as (j' & Ej & Hj). injection Ej as -> ->.
      apply in_seq in Hi. apply in_seq in Hj. unfold bad in Hb. cbn [fst snd] in Hb. apply andb_prop in Hb. destruct Hb as [H1 H2].
      apply Nat.leb_le in H1. exists i, j. split; [lia|]. split; [lia|]. intros E0. rewrite E0 in H2.
      assert (Hr : feqb f0 f0 = true) by (apply HF; reflexivity). rewrite Hr in H2. discriminate.
    - exfalso. apply H. intros i j Hi Hj.
      assert (Hb : bad (i, j) = false).
      { destruct (bad (i, j)) eqn:Eb; [|reflexivity]. rewrite <- E. symmetry. apply existsb_exists. exists (i, j). split; [|exact Eb].
        unfold l. apply in_flat_map. exists i. split; [apply in_seq; lia|]. apply in_map. apply in_seq. lia. }
      unfold bad in Hb. cbn [fst snd] in Hb. destruct (Nat.leb_spec n j); [|lia]. cbn [andb] in Hb.
      apply negb_false_iff in Hb. apply HF in Hb. exact Hb.
  Qed.

  Lemma mat_inverse_surplus_debug n (m : list (list F)) : is_field Fo -> wide n m -> ~ surplus_zero n m ->
    mat_inverse true m = Panic.
  Proof.
    intros HF Hw HZ. destruct (zero_dec n m HF HZ) as (i & j & Hi & Hj & Hnz).
    assert (L : length m = n) by (destruct Hw; assumption). assert (Hn : 0 < n) by lia.
    destruct (ends_cases _ (mat_inverse_ends true m)) as [[B E]|E]; [exfalso|exact E].
    pose proof (narrow_sq n m Hw) as Hs. assert (HS : length (map (skipn n) m) = n) by (rewrite map_length; exact L).
    unfold mat_inverse in E. rewrite L in E.
    apply bind_ok in E. destruct E as (r0 & _ & E). apply bind_ok in E. destruct E as (u & _ & E).
    apply bind_ok in E. destruct E as (inv & _ & E).
    destruct (sim_all n (map (skipn n) m) HS true (narrow n m, inv) Hs) as [E1 E2].
    unfold A in E1 at 1. cbn [fst snd] in E1. rewrite <- zip_split in E1.
    rewrite <- (bind_assoc (for_range 0 n (mi_down_row n) (m, inv)) (fun st => for_range_rev 0 n (mi_up_row true n) st)
      (fun st : St => mi_debug_check true (fst st) ;; Ok (snd st))), E1 in E.
    destruct (bind (for_range 0 n (mi_down_row n) (narrow n m, inv)) (fun st => for_range_rev 0 n (mi_up_row true n) st)) as [st| |]; [|discriminate|discriminate].
    cbn [rmap bind] in E. unfold A in E. cbn [fst snd] in E.
    rewrite (check_zip_bad n (fst st) (map (skipn n) m) i (j - n)) in E; [discriminate|exact HF|apply E2; reflexivity|exact HS|lia| |].
    - rewrite surplus_len. lia.
    - rewrite surplus_nth. replace (n + (j - n)) with j by lia. exact Hnz.
  Qed.

  (** transposition *)
  Lemma transpose_wide n (m : list (list F)) : wide n m -> mat_transpose m = mat_transpose (narrow n m).
  Proof.
    intros Hw. destruct n as [|n]; [apply wide0 in Hw; subst; reflexivity|].
    pose proof (narrow_dims _ _ Hw) as [Ln Dn]. destruct Hw as (L & H0 & H).
    rewrite (mat_transpose_ok m (S n) (S n)), (mat_transpose_ok (narrow (S n) m) (S n) (S n));
      [|exact Ln|lia|apply Dn; lia|intros i Hi; rewrite Dn by exact Hi; lia|exact L|lia|exact H0|exact H].
    f_equal. apply mk_mat_ext. intros i j Hi Hj. unfold entry. rewrite narrow_nth.
    rewrite <- (firstn_skipn (S n) (nth j m [])) at 1. apply app_nth1. rewrite firstn_length. specialize (H j Hj). lia.
  Qed.

  Lemma loop_step_ok {X St} (l : list X) (f : X -> St -> res St) s s' x :
    for_list l f s = Ok s' -> In x l -> exists a b, f x a = Ok b.
  Proof.
    revert s. induction l as [|y l IH]; intros s H []; cbn [for_list] in H; apply bind_ok in H; destruct H as (s1 & H1 & H2).
    - subst. eauto.
    - eapply IH; eauto.
  Qed.

  Lemma transpose_short (m : list (list F)) i : i < length m -> length (nth i m []) < length (nth 0 m []) ->
    mat_transpose m = Panic.
  Proof.
    intros Hi Hs. destruct (ends_cases _ (mat_transpose_ends m)) as [[B E]|E]; [exfalso|exact E].
    unfold mat_transpose in E. rewrite (idx_ok []) in E by lia. cbn [bind] in E.
    eapply loop_step_ok in E; [|apply (in_enum []); split; [exact Hi|reflexivity]].
    destruct E as (a & b & E). cbn beta iota in E.
    eapply (loop_step_ok _ _ _ _ (length (nth i m []))) in E; [|apply in_seq; lia].
    destruct E as (a' & b' & E). rewrite idx_panic in E by lia. discriminate.
  Qed.

  Lemma new_short dbg t d rf rp (mds rc : list (list F)) i :
    i < length mds -> length (nth i mds []) < length (nth 0 mds []) -> ps_new dbg t d rf rp mds rc = Panic.
  Proof.
    intros Hi Hs. destruct (ends_cases _ (ps_new_ends dbg t d rf rp mds rc)) as [[P E]|E]; [exfalso|exact E].
    unfold ps_new, ps_equivalent_matrices in E. rewrite (transpose_short mds i Hi Hs) in E.
    do 4 (apply bind_ok in E; destruct E as (? & _ & E)). discriminate.
  Qed.

  Lemma new_ok_wide dbg t d rf rp (mds rc : list (list F)) P : ps_new dbg t d rf rp mds rc = Ok P -> wide t mds /\ 0 < t.
  Proof.
    intros E.
    destruct (Nat.eq_dec (length mds) t) as [L|L]; [|rewrite ps_new_wrong_size in E by (left; exact L); discriminate].
    destruct (Nat.eq_dec (length (nth 0 mds [])) t) as [H0|H0]; [|rewrite ps_new_wrong_size in E by (right; exact H0); discriminate].
    split.
    - split; [exact L|]. split; [exact H0|]. intros i Hi.
      destruct (Nat.le_gt_cases t (length (nth i mds []))) as [H|H]; [exact H|].
      rewrite (new_short dbg t d rf rp mds rc i) in E by lia. discriminate.
    - destruct t as [|t]; [|lia]. destruct mds; [|discriminate]. unfold ps_new, ps_equivalent_matrices in E.
      do 4 (apply bind_ok in E; destruct E as (? & _ & E)). discriminate.
  Qed.

  Definition with_mds (mds : list (list F)) (P : PoseidonParams F) : PoseidonParams F :=
    {| ps_t := ps_t P; ps_d := ps_d P; ps_rounds_f_beginning := ps_rounds_f_beginning P; ps_rounds_p := ps_rounds_p P;
       ps_rounds_f_end := ps_rounds_f_end P; ps_rounds := ps_rounds P; ps_mds := mds; ps_rc := ps_rc P;
       ps_opt_rc := ps_opt_rc P; ps_w_hat := ps_w_hat P; ps_v := ps_v P; ps_m_i := ps_m_i P |}.

  Lemma new_wide dbg t d rf rp (mds rc : list (list F)) : is_field Fo -> wide t mds ->
    (dbg = true -> surplus_zero t mds) ->
    ps_new dbg t d rf rp mds rc = rmap (with_mds mds) (ps_new dbg t d rf rp (narrow t mds) rc).
  Proof.
    intros HF Hw HZ. unfold ps_new, ps_equivalent_matrices, ps_equivalent_round_constants.
    rewrite <- (mat_inverse_surplus dbg t mds HF Hw HZ), <- (transpose_wide t mds Hw).
    replace (length (narrow t mds)) with (length mds) by (unfold narrow; rewrite map_length; reflexivity).
    do 4 (apply same_bind; intros ? _). apply same_bind. intros [[mi v] w] _. apply same_bind. intros o _. reflexivity.
  Qed.

  Lemma new_surplus_debug t d rf rp (mds rc : list (list F)) : is_field Fo -> ~ surplus_zero t mds ->
    ps_new true t d rf rp mds rc = Panic.
  Proof.
    intros HF HZ. destruct (ends_cases _ (ps_new_ends true t d rf rp mds rc)) as [[P E]|E]; [exfalso|exact E].
    destruct (new_ok_wide _ _ _ _ _ _ _ _ E) as [Hw Ht].
    unfold ps_new, ps_equivalent_round_constants in E. rewrite (mat_inverse_surplus_debug t mds HF Hw HZ) in E.
    do 4 (apply bind_ok in E; destruct E as (? & _ & E)). apply bind_ok in E. destruct E as ([[mi v] w] & _ & E). discriminate.
  Qed.

  (** the permutations read only the first t entries of each row *)
  Lemma in_firstn_seq t a k x : In x (firstn t (seq a k)) -> x < a + t.
  Proof.
    revert a t. induction k as [|k IH]; intros a [|t]; cbn; try tauto.
    intros [<-|H]; [lia|]. apply IH in H. lia.
  Qed.

  Lemma idx2_narrow t (m : list (list F)) i j : wide t m -> j < t -> idx2 m i j = idx2 (narrow t m) i j.
  Proof.
    intros Hw Hj. rewrite (zip_split t m) at 1. apply (idx2_zip t); [rewrite map_length; destruct Hw; assumption|apply narrow_sq; exact Hw|exact Hj].
  Qed.

  Lemma matmul_narrow dbg t (m : list (list F)) x : wide t m -> ps_matmul dbg x m = ps_matmul dbg x (narrow t m).
  Proof.
    intros Hw. unfold ps_matmul. replace (length (narrow t m)) with (length m) by (unfold narrow; rewrite map_length; reflexivity).
    apply bind_ext. intros _ _. apply for_range_ext. intros row s _. apply for_list_ext. intros [col inp] s' Hin.
    rewrite combine_firstn in Hin. apply in_combine_l in Hin. apply in_firstn_seq in Hin.
    rewrite (idx2_narrow t); [reflexivity|exact Hw|]. destruct Hw as (L & _). lia.
  Qed.

  Lemma full_round_narrow dbg t mds (P : PoseidonParams F) r x : wide t mds ->
    ps_full_round dbg (with_mds mds P) r x = ps_full_round dbg (with_mds (narrow t mds) P) r x.
  Proof.
    intros Hw. unfold ps_full_round. cbn [with_mds ps_rc ps_mds]. apply bind_ext. intros rc _. 
    change (ps_sbox (with_mds (narrow t mds) P)) with (ps_sbox (with_mds mds P)).
    apply bind_ext. intros s _. apply matmul_narrow. exact Hw.
  Qed.

  Lemma partial_round_narrow dbg t mds (P : PoseidonParams F) r x : wide t mds ->
    ps_partial_round dbg (with_mds mds P) r x = ps_partial_round dbg (with_mds (narrow t mds) P) r x.
  Proof.
    intros Hw. unfold ps_partial_round. cbn [with_mds ps_rc ps_mds]. apply bind_ext. intros rc _.
    cbv zeta. apply bind_ext. intros x0 _.
    change (ps_sbox_p (with_mds (narrow t mds) P)) with (ps_sbox_p (with_mds mds P)).
    apply bind_ext. intros y _. apply bind_ext. intros s _. apply matmul_narrow. exact Hw.
  Qed.

  Lemma opt_partial_narrow t mds (P : PoseidonParams F) e r x : wide t mds -> 0 < t ->
    ps_opt_partial_round (with_mds mds P) e r x = ps_opt_partial_round (with_mds (narrow t mds) P) e r x.
  Proof.
    intros Hw Ht. unfold ps_opt_partial_round, ps_cheap_matmul. cbn [with_mds ps_mds ps_opt_rc ps_v ps_w_hat ps_t ps_rounds_f_beginning].
    rewrite (idx2_narrow t mds 0 0 Hw Ht).
    change (ps_sbox_p (with_mds (narrow t mds) P)) with (ps_sbox_p (with_mds mds P)). reflexivity.
  Qed.

  Lemma perm_narrow dbg t mds (P : PoseidonParams F) x : wide t mds -> 0 < t ->
    ps_permutation dbg (with_mds mds P) x = ps_permutation dbg (with_mds (narrow t mds) P) x.
  Proof.
    intros Hw Ht. unfold ps_permutation. cbn [with_mds ps_t ps_rounds_f_beginning ps_rounds_p ps_rounds ps_opt_rc ps_m_i].
    apply bind_ext. intros _ _.
    rewrite (for_range_ext 0 _ (ps_full_round dbg (with_mds mds P)) (ps_full_round dbg (with_mds (narrow t mds) P)))
      by (intros; apply full_round_narrow; exact Hw).
    do 3 (apply bind_ext; intros ? _). apply bind_ext. intros s _.
    rewrite (for_range_ext _ _ (ps_opt_partial_round (with_mds mds P) a0) (ps_opt_partial_round (with_mds (narrow t mds) P) a0))
      by (intros; apply opt_partial_narrow; assumption).
    apply bind_ext. intros s' _. apply for_range_ext. intros. apply full_round_narrow. exact Hw.
  Qed.

  Lemma perm_not_opt_narrow dbg t mds (P : PoseidonParams F) x : wide t mds ->
    ps_permutation_not_opt dbg (with_mds mds P) x = ps_permutation_not_opt dbg (with_mds (narrow t mds) P) x.
  Proof.
    intros Hw. unfold ps_permutation_not_opt. cbn [with_mds ps_t ps_rounds_f_beginning ps_rounds_p ps_rounds].
    apply bind_ext. intros _ _.
    rewrite (for_range_ext 0 _ (ps_full_round dbg (with_mds mds P)) (ps_full_round dbg (with_mds (narrow t mds) P)))
      by (intros; apply full_round_narrow; exact Hw).
    do 2 (apply bind_ext; intros ? _).
    rewrite (for_range_ext _ _ (ps_partial_round dbg (with_mds mds P)) (ps_partial_round dbg (with_mds (narrow t mds) P)))
      by (intros; apply partial_round_narrow; assumption).
    apply bind_ext. intros s' _. apply for_range_ext. intros. apply full_round_narrow. exact Hw.
  Qed.

  Lemma new_mds dbg t d rf rp (mds rc : list (list F)) P : ps_new dbg t d rf rp mds rc = Ok P -> with_mds mds P = P.
  Proof.
    unfold ps_new. intros E. do 4 (apply bind_ok in E; destruct E as (? & _ & E)).
    apply bind_ok in E. destruct E as ([[mi v] w] & _ & E). apply bind_ok in E. destruct E as (o & _ & E).
    injection E as <-. reflexivity.
  Qed.

  Lemma surplus_ignored dbg t d rf rp (mds rc : list (list F)) : is_field Fo -> wide t mds ->
    (dbg = true -> surplus_zero t mds) ->
    match ps_new dbg t d rf rp mds rc, ps_new dbg t d rf rp (narrow t mds) rc with
    | Ok P, Ok P' => forall x, ps_permutation dbg P x = ps_permutation dbg P' x /\
                               ps_permutation_not_opt dbg P x = ps_permutation_not_opt dbg P' x
    | Panic, Panic => True
    | _, _ => False
    end.
  Proof.
    intros HF Hw HZ. pose proof (new_wide dbg t d rf rp mds rc HF Hw HZ) as E.
    pose proof (ps_new_ends dbg t d rf rp (narrow t mds) rc) as En.
    destruct (ps_new dbg t d rf rp (narrow t mds) rc) as [P'| |] eqn:E2; rewrite E; cbn [rmap bind]; [|exact I|exact (En eq_refl)].
    intros x. cbn [rmap bind] in E. destruct (new_ok_wide _ _ _ _ _ _ _ _ E) as [_ Ht].
    rewrite (perm_narrow dbg t mds P' x Hw Ht), (perm_not_opt_narrow dbg t mds P' x Hw).
    rewrite (new_mds _ _ _ _ _ _ _ _ E2). auto.
  Qed.

  Lemma accepted_form dbg t d rf rp (mds rc : list (list F)) P : is_field Fo ->
    ps_new dbg t d rf rp mds rc = Ok P -> wide t mds /\ (dbg = true -> surplus_zero t mds).
  Proof.
    intros HF E. split; [eapply new_ok_wide; eauto|]. intros ->.
    destruct (new_ok_wide _ _ _ _ _ _ _ _ E) as [Hw _].
    intros i j Hi Hj. destruct (feqb (nth j (nth i mds []) f0) f0) eqn:Eq; [apply HF in Eq; exact Eq|exfalso].
    rewrite new_surplus_debug in E; [discriminate|exact HF|]. intros H. rewrite (H i j Hi Hj) in Eq.
    assert (feqb f0 f0 = true) by (apply HF; reflexivity). congruence.
  Qed.

  Lemma opt_eq_any dbg t d rf rp (mds rc : list (list F)) P x : is_field Fo ->
    ps_new dbg t d rf rp mds rc = Ok P -> (N.of_nat rf + N.of_nat rp < usize_mod)%N ->
    (forall k, k < rp -> t <= length (nth (rf / 2 + k) rc [])) ->
    ps_permutation dbg P x = ps_permutation_not_opt dbg P x.
  Proof.
    intros HF E Hov Hrc. destruct (accepted_form _ _ _ _ _ _ _ _ HF E) as [Hw HZ].
    pose proof (surplus_ignored dbg t d rf rp mds rc HF Hw HZ) as H. rewrite E in H.
    destruct (ps_new dbg t d rf rp (narrow t mds) rc) as [P'| |] eqn:E2; [|contradiction|contradiction].
    destruct (H x) as [-> ->]. exact (ps_opt_eq HF dbg t d rf rp _ _ _ x E2 Hov (narrow_dims t mds Hw) Hrc).
  Qed.

  Lemma opt_eq_any_debug t d rf rp (mds rc : list (list F)) P x : is_field Fo ->
    ps_new true t d rf rp mds rc = Ok P -> 
    ps_permutation true P x = ps_permutation_not_opt true P x.
  Proof.
    intros HF E. destruct (accepted_form _ _ _ _ _ _ _ _ HF E) as [Hw HZ].
    pose proof (surplus_ignored true t d rf rp mds rc HF Hw HZ) as H. rewrite E in H.
    destruct (ps_new true t d rf rp (narrow t mds) rc) as [P'| |] eqn:E2; [|contradiction|contradiction].
    destruct (H x) as [-> ->].
    assert (Hov : (N.of_nat rf + N.of_nat rp < usize_mod)%N).
    { unfold ps_new in E2. do 3 (apply bind_ok in E2; destruct E2 as (? & _ & E2)). apply bind_ok in E2. destruct E2 as (u & Hu & _).
      unfold uadd in Hu. destruct (N.ltb_spec (N.of_nat rf + N.of_nat rp) usize_mod); [assumption|discriminate]. }
    exact (ps_opt_eq_debug HF t d rf rp _ _ _ x E2 Hov (narrow_dims t mds Hw)).
  Qed.
End Top.
