(** * ProofUniform: the permutations use field elements only through +, - and * (C82) *)
From Verif Require Import Base Field ModelPoseidon2 ModelPoseidon ModelGmimc ModelNeptune ModelMerkle SpecUniform F13.
Local Open Scope nat_scope.

Section Sim.
  Context {A B : Type}.
  Implicit Types Q : A -> B -> Prop.
  Lemma so_bind {C D} Q (S : C -> D -> Prop) m n (k : A -> res C) (h : B -> res D) :
    same_outcome Q m n -> (forall a b, Q a b -> same_outcome S (k a) (h b)) -> same_outcome S (bind m k) (bind n h).
  Proof. destruct m, n; simpl; intros H K; try contradiction; auto. Qed.
  Lemma so_idx Q l m i : Forall2 Q l m -> same_outcome Q (idx l i) (idx m i).
  Proof.
    intros H. revert i. unfold idx. induction H as [|a b l m Hab H IH]; intros [|i]; simpl; auto.
  Qed.
  Lemma f2_firstn Q l m i : Forall2 Q l m -> Forall2 Q (firstn i l) (firstn i m).
  Proof. intros H. revert i. induction H; intros [|i]; simpl; auto. Qed.
  Lemma f2_skipn Q l m i : Forall2 Q l m -> Forall2 Q (skipn i l) (skipn i m).
  Proof. intros H. revert i. induction H; intros [|i]; simpl; auto. Qed.
  Lemma f2_repeat Q a b n : Q a b -> Forall2 Q (repeat a n) (repeat b n).
  Proof. intros H. induction n; simpl; auto. Qed.
  Lemma f2_len Q l m : Forall2 Q l m -> length m = length l.
  Proof. intros H. induction H; simpl; congruence. Qed.
  Lemma so_upd Q l m i a b : Forall2 Q l m -> Q a b -> same_outcome (Forall2 Q) (upd l i a) (upd m i b).
  Proof.
    intros H K. unfold upd. rewrite (f2_len _ _ _ H). destruct (i <? length l); simpl; [|exact Logic.I].
    unfold set_nth. apply Forall2_app; [now apply f2_firstn|]. constructor; [exact K|]. now apply f2_skipn.
  Qed.
  Lemma so_rotr Q l m k : Forall2 Q l m -> same_outcome (Forall2 Q) (rotate_right l k) (rotate_right m k).
  Proof.
    intros H. unfold rotate_right. rewrite (f2_len _ _ _ H). destruct (k <=? length l); simpl; [|exact Logic.I].
    apply Forall2_app; [now apply f2_skipn|now apply f2_firstn].
  Qed.
  Lemma so_rotl Q l m k : Forall2 Q l m -> same_outcome (Forall2 Q) (rotate_left l k) (rotate_left m k).
  Proof.
    intros H. unfold rotate_left. rewrite (f2_len _ _ _ H). destruct (k <=? length l); simpl; [|exact Logic.I].
    apply Forall2_app; [now apply f2_skipn|now apply f2_firstn].
  Qed.
  Lemma so_for {X Y} (T : X -> Y -> Prop) Q l m (f : X -> A -> res A) (g : Y -> B -> res B) s s' :
    Forall2 T l m -> (forall x y a b, T x y -> Q a b -> same_outcome Q (f x a) (g y b)) -> Q s s' ->
    same_outcome Q (for_list l f s) (for_list m g s').
  Proof.
    intros H K. revert s s'. induction H as [|x y l m Hxy H IH]; intros s s' Hs; simpl; [exact Hs|].
    eapply so_bind; [apply K; eassumption|]. intros a b Hab. now apply IH.
  Qed.
  Lemma f2_same {X} (l : list X) : Forall2 eq l l.
  Proof. induction l; auto. Qed.
  Lemma so_range Q lo hi (f : nat -> A -> res A) (g : nat -> B -> res B) s s' :
    (forall i a b, Q a b -> same_outcome Q (f i a) (g i b)) -> Q s s' -> same_outcome Q (for_range lo hi f s) (for_range lo hi g s').
  Proof. intros K Hs. apply (so_for eq); [apply f2_same| |exact Hs]. intros x y a b -> Hab. now apply K. Qed.
  Lemma so_range_rev Q lo hi (f : nat -> A -> res A) (g : nat -> B -> res B) s s' :
    (forall i a b, Q a b -> same_outcome Q (f i a) (g i b)) -> Q s s' -> same_outcome Q (for_range_rev lo hi f s) (for_range_rev lo hi g s').
  Proof. intros K Hs. apply (so_for eq); [apply f2_same| |exact Hs]. intros x y a b -> Hab. now apply K. Qed.
  Lemma f2_number Q l m n k : Forall2 Q l m -> Forall2 (fun x y => fst x = fst y /\ Q (snd x) (snd y)) (combine (seq n k) l) (combine (seq n k) m).
  Proof.
    intros H. revert n k. induction H; intros n [|k]; cbn [seq combine]; auto.
  Qed.
  Lemma f2_step2 Q l m : Forall2 Q l m -> Forall2 Q (step_by_2 l) (step_by_2 m).
  Proof.
    intros H. enough (K : forall n l m, length l <= n -> Forall2 Q l m -> Forall2 Q (step_by_2 l) (step_by_2 m)) by (eapply K; [apply le_n|exact H]).
    clear. induction n as [|n IH]; intros l m Hn H.
    - inversion H; subst; [constructor|simpl in Hn; lia].
    - inversion H as [|a b l' m' Hab H']; subst; [constructor|]. inversion H' as [|a2 b2 l2 m2 Hab2 H2]; subst; [repeat constructor; exact Hab|].
      simpl. constructor; [exact Hab|]. apply IH; [simpl in Hn; lia|exact H2].
  Qed.
End Sim.
Lemma so_same {A} (m : res A) : same_outcome eq m m.
Proof. destruct m; simpl; auto. Qed.
Lemma so_idx2 {A B} (Q : A -> B -> Prop) l m i j : Forall2 (Forall2 Q) l m -> same_outcome Q (idx2 l i j) (idx2 m i j).
Proof. intros H. unfold idx2. eapply so_bind; [apply so_idx; exact H|]. intros. now apply so_idx. Qed.
Lemma so_swap {A B} (Q : A -> B -> Prop) l m i j : Forall2 Q l m -> same_outcome (Forall2 Q) (swap l i j) (swap m i j).
Proof.
  intros H. unfold swap. eapply so_bind; [apply so_idx; exact H|]. intros. eapply so_bind; [apply so_idx; exact H|]. intros.
  eapply so_bind; [apply so_upd; [exact H|eassumption]|]. intros. now apply so_upd.
Qed.
Lemma so_mapM {A B C D} (Q : A -> B -> Prop) (S : C -> D -> Prop) (f : A -> res C) (g : B -> res D) l m :
  Forall2 Q l m -> (forall a b, Q a b -> same_outcome S (f a) (g b)) -> same_outcome (Forall2 S) (mapM f l) (mapM g m).
Proof.
  intros H K. induction H as [|a b l m Hab H IH]; simpl; [constructor|].
  eapply so_bind; [apply K; exact Hab|]. intros. eapply so_bind; [exact IH|]. intros. simpl. now constructor.
Qed.

(** the same arithmetic on related operands *)
Section Sims.
  Context {F G : Type} {Fo : FOps F} {Go : FOps G} (R : F -> G -> Prop) (HR : respects Fo Go R).

  Lemma r_add a b a' b' : R a a' -> R b b' -> R (fadd a b) (fadd a' b').
  Proof. apply (rs_add _ _ _ HR). Qed.
  Lemma r_sub a b a' b' : R a a' -> R b b' -> R (fsub a b) (fsub a' b').
  Proof. apply (rs_sub _ _ _ HR). Qed.
  Lemma r_mul a b a' b' : R a a' -> R b b' -> R (fmul a b) (fmul a' b').
  Proof. apply (rs_mul _ _ _ HR). Qed.
  Lemma r_square a a' : R a a' -> R (fsquare a) (fsquare a').
  Proof. intros. now apply r_mul. Qed.
  Lemma r_double a a' : R a a' -> R (fdouble a) (fdouble a').
  Proof. intros. now apply r_add. Qed.
  Lemma r_sum l m a a' : Forall2 R l m -> R a a' -> R (fold_left fadd l a) (fold_left fadd m a').
  Proof. intros H. revert a a'. induction H; intros a0 a' Ha; simpl; [exact Ha|]. apply IHForall2. now apply r_add. Qed.
  Lemma r_0 : R f0 f0. Proof. apply (rs_0 _ _ _ HR). Qed.
  Lemma r_zeros n : Forall2 R (repeat f0 n) (repeat f0 n).
  Proof. apply f2_repeat, r_0. Qed.
  Lemma r_add_rc l m l' m' : Forall2 R l m -> Forall2 R l' m' -> Forall2 R (add_rc l l') (add_rc m m').
  Proof.
    intros H. revert l' m'. unfold add_rc. induction H as [|a b l m Hab H IH]; intros l' m' H'; simpl; [constructor|].
    inversion H'; subst; simpl; constructor; [now apply r_add|now apply IH].
  Qed.
  Lemma r_map_add l m a a' : Forall2 R l m -> R a a' -> Forall2 R (map (fun f => fadd f a) l) (map (fun f => fadd f a') m).
  Proof. intros H Ha. induction H; simpl; constructor; auto. now apply r_add. Qed.

  Hint Resolve r_add r_sub r_mul r_square r_double r_0 r_zeros r_sum r_add_rc r_map_add f2_firstn f2_skipn f2_step2 : uni.
  Ltac rel := solve [repeat first [assumption | apply r_0 | apply r_square | apply r_double | apply r_add | apply r_sub | apply r_mul | apply r_sum] | auto with uni].
  Ltac go :=
    intros; cbv beta zeta;
    repeat match goal with
    | H : _ /\ _ |- _ => destruct H
    | x : (_ * _)%type |- _ => destruct x; cbn [fst snd] in *
    end; subst;
    lazymatch goal with
    | |- same_outcome _ (bind _ _) (bind _ _) => eapply so_bind; [go|go]
    | |- same_outcome _ (idx _ _) (idx _ _) => eapply so_idx; solve [eauto with uni]
    | |- same_outcome _ (idx2 _ _ _) (idx2 _ _ _) => eapply so_idx2; solve [eauto with uni]
    | |- same_outcome _ (upd _ _ _) (upd _ _ _) => eapply so_upd; [solve [eauto with uni]|rel]
    | |- same_outcome _ (swap _ _ _) (swap _ _ _) => eapply so_swap; solve [eauto with uni]
    | |- same_outcome _ (rotate_right _ _) (rotate_right _ _) => eapply so_rotr; solve [eauto with uni]
    | |- same_outcome _ (rotate_left _ _) (rotate_left _ _) => eapply so_rotl; solve [eauto with uni]
    | |- same_outcome _ (for_range _ _ _ _) (for_range _ _ _ _) => eapply so_range; [go|eauto with uni]
    | |- same_outcome _ (for_range_rev _ _ _ _) (for_range_rev _ _ _ _) => eapply so_range_rev; [go|eauto with uni]
    | |- same_outcome _ (Ok _) (Ok _) => cbn [same_outcome]; eauto 8 with uni
    | |- same_outcome _ Panic Panic => exact Logic.I
    | |- same_outcome _ ?m ?m => apply so_same
    | |- _ => first [rel | eauto 8 with uni]
    end.

  Ltac cases := repeat match goal with |- same_outcome _ (match ?n with O => _ | S _ => _ end) _ => destruct n end.
  Notation so := (same_outcome (Forall2 R)).

  (** *** Poseidon2 *)
  Section P2.
    Context (P : Poseidon2Params F) (Q : Poseidon2Params G) (H : p2_related R P Q).
    Lemma u_p2_sbox_p a b : R a b -> same_outcome R (p2_sbox_p P a) (p2_sbox_p Q b).
    Proof.
      intros Hab. unfold p2_sbox_p. rewrite (r2_d _ _ _ H). destruct (p2_d Q) as [|[|[|[|[|[|[|[|?]]]]]]]]; cbn [same_outcome]; cbv zeta; auto 12 with uni.
    Qed.
    Lemma u_p2_sbox l m : Forall2 R l m -> so (p2_sbox P l) (p2_sbox Q m).
    Proof. intros. eapply so_mapM; [eassumption|]. apply u_p2_sbox_p. Qed.
    Lemma u_m4 i l m : Forall2 R l m -> so (p2_m4_body i l) (p2_m4_body i m).
    Proof. intros K. unfold p2_m4_body. go. Qed.
    Lemma u_matmul_m4 l m : Forall2 R l m -> so (p2_matmul_m4 P l) (p2_matmul_m4 Q m).
    Proof. intros K. unfold p2_matmul_m4. rewrite (r2_t _ _ _ H). apply so_range; [|exact K]. intros. now apply u_m4. Qed.
    Lemma u_stored t4 l m : Forall2 R l m -> so (p2_stored t4 l) (p2_stored t4 m).
    Proof. intros K. unfold p2_stored. go. Qed.
    Lemma u_external_big l m : Forall2 R l m -> so (p2_external_big P l) (p2_external_big Q m).
    Proof.
      intros K. unfold p2_external_big. eapply so_bind; [apply u_matmul_m4; exact K|]. intros a b Kab. rewrite (r2_t _ _ _ H).
      eapply so_bind; [apply u_stored; exact Kab|]. intros c e Kce. rewrite (f2_len _ _ _ Kab). go.
    Qed.
    Lemma u_external l m : Forall2 R l m -> so (p2_matmul_external P l) (p2_matmul_external Q m).
    Proof.
      intros K. pose proof (u_matmul_m4 l m K). pose proof (u_external_big l m K). unfold p2_matmul_external. rewrite (r2_t _ _ _ H).
      generalize (p2_t Q) as n. intros n. cases; first [exact Logic.I|assumption|go].
    Qed.
    Lemma u_internal_big l m d e : Forall2 R l m -> Forall2 R d e -> so (p2_internal_big P l d) (p2_internal_big Q m e).
    Proof. intros K K'. unfold p2_internal_big. rewrite (r2_t _ _ _ H), (f2_len _ _ _ K). go. Qed.
    Lemma u_internal l m d e : Forall2 R l m -> Forall2 R d e -> so (p2_matmul_internal P l d) (p2_matmul_internal Q m e).
    Proof.
      intros K K'. pose proof (u_internal_big l m d e K K'). unfold p2_matmul_internal. rewrite (r2_t _ _ _ H).
      generalize (p2_t Q) as n. intros n. cases; first [exact Logic.I|assumption|go].
    Qed.
    Lemma u_p2_full r l m : Forall2 R l m -> so (p2_full_round P r l) (p2_full_round Q r m).
    Proof.
      intros K. unfold p2_full_round. eapply so_bind; [apply so_idx, (r2_rc _ _ _ H)|]. intros a b Kab.
      eapply so_bind; [apply u_p2_sbox; now apply r_add_rc|]. intros. now apply u_external.
    Qed.
    Lemma u_p2_partial r l m : Forall2 R l m -> so (p2_partial_round P r l) (p2_partial_round Q r m).
    Proof.
      intros K. unfold p2_partial_round. eapply so_bind; [apply so_idx, K|]. intros a b Kab.
      eapply so_bind; [apply so_idx2, (r2_rc _ _ _ H)|]. intros c e Kce. eapply so_bind; [apply so_upd; eauto with uni|]. intros f g Kfg.
      eapply so_bind; [apply so_idx, Kfg|]. intros h h' Khh. eapply so_bind; [apply u_p2_sbox_p, Khh|]. intros o o' Koo.
      eapply so_bind; [apply so_upd; eauto with uni|]. intros. apply u_internal; [assumption|apply (r2_diag _ _ _ H)].
    Qed.
    Lemma u_p2_permutation dbg l m : Forall2 R l m -> so (p2_permutation dbg P l) (p2_permutation dbg Q m).
    Proof.
      intros K. unfold p2_permutation. rewrite (f2_len _ _ _ K), (r2_t _ _ _ H), (r2_beg _ _ _ H), (r2_p _ _ _ H), (r2_rounds _ _ _ H).
      eapply so_bind; [apply so_same|]. intros _ _ _. eapply so_bind; [apply u_external, K|]. intros a b Kab.
      eapply so_bind; [apply so_range; [|exact Kab]; intros; now apply u_p2_full|]. intros c e Kce. eapply so_bind; [apply so_same|]. intros ? n ->.
      eapply so_bind; [apply so_range; [|exact Kce]; intros; now apply u_p2_partial|]. intros. apply so_range; [|assumption]. intros. now apply u_p2_full.
    Qed.
    Lemma u_p2_compress dbg l m : Forall2 R l m -> same_outcome R (p2_compress dbg P l) (p2_compress dbg Q m).
    Proof.
      intros K. unfold p2_compress. eapply so_bind; [apply so_idx, K|]. intros a b Kab. eapply so_bind; [apply so_idx, K|]. intros c e Kce.
      eapply so_bind; [apply u_p2_permutation; repeat constructor; auto with uni|]. intros. now apply so_idx.
    Qed.
  End P2.

  (** *** Poseidon *)
  Section PS.
    Context (P : PoseidonParams F) (Q : PoseidonParams G) (H : ps_related R P Q).
    Lemma u_ps_sbox_p a b : R a b -> same_outcome R (ps_sbox_p P a) (ps_sbox_p Q b).
    Proof.
      intros Hab. unfold ps_sbox_p. rewrite (rp_d _ _ _ H). destruct (ps_d Q) as [|[|[|[|[|[|[|[|?]]]]]]]]; cbn [same_outcome]; cbv zeta; auto 12 with uni.
    Qed.
    Lemma u_ps_sbox l m : Forall2 R l m -> so (ps_sbox P l) (ps_sbox Q m).
    Proof. intros. eapply so_mapM; [eassumption|]. apply u_ps_sbox_p. Qed.
    Lemma u_ps_matmul dbg l m A B : Forall2 R l m -> rows_related R A B -> so (ps_matmul dbg l A) (ps_matmul dbg m B).
    Proof.
      intros K K'. unfold ps_matmul. rewrite (f2_len _ _ _ K), (f2_len _ _ _ K'). eapply so_bind; [apply so_same|]. intros _ _ _.
      apply so_range; [|apply r_zeros]. intros i a b Kab. eapply so_for; [apply f2_firstn, f2_number, K| |exact Kab].
      intros. cbn beta in *. go.
    Qed.
    Lemma u_cheap l m r : Forall2 R l m -> so (ps_cheap_matmul P l r) (ps_cheap_matmul Q m r).
    Proof.
      intros K. pose proof (rp_v _ _ _ H). pose proof (rp_w _ _ _ H). pose proof (rp_mds _ _ _ H). unfold rows_related in *.
      unfold ps_cheap_matmul. rewrite (rp_t _ _ _ H). go.
    Qed.
    Lemma u_ps_full dbg r l m : Forall2 R l m -> so (ps_full_round dbg P r l) (ps_full_round dbg Q r m).
    Proof.
      intros K. unfold ps_full_round. eapply so_bind; [apply so_idx, (rp_rc _ _ _ H)|]. intros.
      eapply so_bind; [apply u_ps_sbox; now apply r_add_rc|]. intros. apply u_ps_matmul; [assumption|apply (rp_mds _ _ _ H)].
    Qed.
    Lemma u_ps_opt p_end r l m : Forall2 R l m -> so (ps_opt_partial_round P p_end r l) (ps_opt_partial_round Q p_end r m).
    Proof.
      intros K. unfold ps_opt_partial_round. rewrite (rp_beg _ _ _ H). eapply so_bind; [apply so_idx, K|]. intros a b Kab.
      eapply so_bind; [apply u_ps_sbox_p, Kab|]. intros c e Kce. eapply so_bind; [apply so_upd; eauto with uni|]. intros f g Kfg.
      eapply (so_bind (Forall2 R)); [|intros; now apply u_cheap]. destruct (r <? p_end - 1); [|exact Kfg].
      eapply so_bind; [apply so_idx, Kfg|]. intros. eapply so_bind; [apply so_idx2, (rp_opt _ _ _ H)|]. intros. apply so_upd; eauto with uni.
    Qed.
    Lemma u_ps_partial dbg r l m : Forall2 R l m -> so (ps_partial_round dbg P r l) (ps_partial_round dbg Q r m).
    Proof.
      intros K. unfold ps_partial_round. eapply so_bind; [apply so_idx, (rp_rc _ _ _ H)|]. intros a b Kab. pose proof (r_add_rc _ _ _ _ K Kab) as K1.
      eapply so_bind; [apply so_idx, K1|]. intros c e Kce. eapply so_bind; [apply u_ps_sbox_p, Kce|]. intros.
      eapply so_bind; [apply so_upd; eauto with uni|]. intros. apply u_ps_matmul; [assumption|apply (rp_mds _ _ _ H)].
    Qed.
    Lemma u_ps_permutation dbg l m : Forall2 R l m -> so (ps_permutation dbg P l) (ps_permutation dbg Q m).
    Proof.
      intros K. unfold ps_permutation. rewrite (f2_len _ _ _ K), (rp_t _ _ _ H), (rp_beg _ _ _ H), (rp_p _ _ _ H), (rp_rounds _ _ _ H).
      eapply so_bind; [apply so_same|]. intros _ _ _. eapply so_bind; [apply so_range; [|exact K]; intros; now apply u_ps_full|]. intros c e Kce.
      eapply so_bind; [apply so_same|]. intros ? n ->. eapply so_bind; [apply so_idx, (rp_opt _ _ _ H)|]. intros f g Kfg.
      eapply so_bind; [apply u_ps_matmul; [now apply r_add_rc|apply (rp_mi _ _ _ H)]|]. intros h h' Kh.
      eapply so_bind; [apply so_range; [|exact Kh]; intros; now apply u_ps_opt|]. intros. apply so_range; [|assumption]. intros. now apply u_ps_full.
    Qed.
    Lemma u_ps_permutation_not_opt dbg l m : Forall2 R l m -> so (ps_permutation_not_opt dbg P l) (ps_permutation_not_opt dbg Q m).
    Proof.
      intros K. unfold ps_permutation_not_opt. rewrite (f2_len _ _ _ K), (rp_t _ _ _ H), (rp_beg _ _ _ H), (rp_p _ _ _ H), (rp_rounds _ _ _ H).
      eapply so_bind; [apply so_same|]. intros _ _ _. eapply so_bind; [apply so_range; [|exact K]; intros; now apply u_ps_full|]. intros c e Kce.
      eapply so_bind; [apply so_same|]. intros ? n ->.
      eapply so_bind; [apply so_range; [|exact Kce]; intros; now apply u_ps_partial|]. intros. apply so_range; [|assumption]. intros. now apply u_ps_full.
    Qed.
    Lemma u_ps_compress dbg l m : Forall2 R l m -> same_outcome R (ps_compress dbg P l) (ps_compress dbg Q m).
    Proof.
      intros K. unfold ps_compress. eapply so_bind; [apply so_idx, K|]. intros a b Kab. eapply so_bind; [apply so_idx, K|]. intros c e Kce.
      eapply so_bind; [apply u_ps_permutation; repeat constructor; auto with uni|]. intros. now apply so_idx.
    Qed.
  End PS.

  (** *** GMiMC *)
  Section GM.
    Context (P : GmimcParams F) (Q : GmimcParams G) (H : gm_related R P Q).
    Lemma u_gm_sbox a b r : R a b -> same_outcome R (gm_sbox P a r) (gm_sbox Q b r).
    Proof.
      intros Hab. unfold gm_sbox. rewrite (rg_d _ _ _ H). eapply so_bind; [apply so_idx, (rg_rc _ _ _ H)|]. intros.
      destruct (gm_d Q) as [|[|[|[|[|[|[|[|?]]]]]]]]; cbn [same_outcome]; cbv zeta; auto 15 with uni.
    Qed.
    Lemma u_gm_round l m r : Forall2 R l m -> so (gm_round P l r) (gm_round Q m r).
    Proof.
      intros K. unfold gm_round. eapply so_bind; [apply so_idx, K|]. intros a b Kab. eapply so_bind; [apply u_gm_sbox, Kab|]. intros c e Kce.
      simpl. inversion K; subst; constructor; [assumption|now apply r_map_add].
    Qed.
    Lemma u_gm_not_opt dbg l m : Forall2 R l m -> so (gm_permutation_not_opt dbg P l) (gm_permutation_not_opt dbg Q m).
    Proof.
      intros K. unfold gm_permutation_not_opt. rewrite (f2_len _ _ _ K), (rg_t _ _ _ H), (rg_rounds _ _ _ H).
      eapply so_bind; [apply so_same|]. intros _ _ _. eapply so_bind; [apply so_same|]. intros ? n ->.
      eapply so_bind; [apply so_range; [|exact K]; intros; eapply so_bind; [apply u_gm_round; eassumption|]; intros; now apply so_rotr|]. intros.
      eapply so_bind; [apply so_same|]. intros ? k ->. now apply u_gm_round.
    Qed.
    Definition pair_rel (x : F * list F) (y : G * list G) : Prop := R (fst x) (fst y) /\ Forall2 R (snd x) (snd y).
    Definition triple_rel (x : list F * F * list F) (y : list G * G * list G) : Prop :=
      Forall2 R (fst (fst x)) (fst (fst y)) /\ R (snd (fst x)) (snd (fst y)) /\ Forall2 R (snd x) (snd y).
    Lemma u_gm_step r c c' a a' q q' : Forall2 R c c' -> R a a' -> Forall2 R q q' -> same_outcome pair_rel (gm_step P r c a q) (gm_step Q r c' a' q').
    Proof.
      intros. unfold gm_step. eapply so_bind; [apply so_idx; eassumption|]. intros. eapply so_bind; [apply u_gm_sbox; eassumption|]. intros.
      eapply so_bind; [apply so_rotr; eassumption|]. intros. eapply so_bind; [apply so_idx; eassumption|]. intros.
      eapply so_bind; [apply so_upd; eassumption|]. intros. split; cbn [fst snd]; auto with uni.
    Qed.
    Lemma u_gm_permutation dbg l m : Forall2 R l m -> so (gm_permutation dbg P l) (gm_permutation dbg Q m).
    Proof.
      intros K. pose proof (u_gm_not_opt dbg l m K) as Kn. unfold gm_permutation. cbv zeta. rewrite (f2_len _ _ _ K), (rg_t _ _ _ H), (rg_rounds _ _ _ H).
      destruct (gm_t Q <? 8); [exact Kn|]. eapply so_bind; [apply so_same|]. intros _ _ _. eapply so_bind; [apply so_same|]. intros ? n ->.
      eapply (so_bind triple_rel).
      { apply so_range; [|repeat split; cbn [fst snd]; auto with uni]. intros i [[c a] q] [[c' a'] q'] (K1 & K2 & K3). cbn [fst snd] in *.
        eapply so_bind; [apply u_gm_step; eassumption|]. intros [a1 q1] [a1' q1'] [K4 K5]. cbn [fst snd] in *.
        eapply so_bind; [apply so_rotr; eassumption|]. intros. eapply so_bind; [apply so_idx; eassumption|]. intros.
        eapply so_bind; [apply so_upd; eauto with uni|]. intros. repeat split; assumption. }
      intros [[c a] q] [[c' a'] q'] (K1 & K2 & K3). cbn [fst snd] in *. eapply so_bind; [apply so_same|]. intros ? k ->.
      eapply so_bind; [apply u_gm_step; eassumption|]. intros [a1 q1] [a1' q1'] [K4 K5]. cbn [fst snd] in *.
      eapply so_bind; [apply so_idx; eassumption|]. intros. eapply so_bind; [apply so_upd; eauto with uni|]. intros.
      eapply (so_bind triple_rel).
      { apply so_range_rev; [|repeat split; assumption]. intros i [[cc aa] qq] [[cc' aa'] qq'] (K6 & K7 & K8). cbn [fst snd] in *.
        eapply so_bind; [apply so_rotr; eassumption|]. intros. eapply so_bind; [apply so_idx; eassumption|]. intros.
        eapply so_bind; [apply so_idx; eassumption|]. intros. eapply so_bind; [apply so_upd; eauto with uni|]. intros.
        repeat split; cbn [fst snd]; auto with uni. }
      intros [[c3 a3] q3] [[c3' a3'] q3'] (K9 & _ & _). exact K9.
    Qed.
    Lemma u_gm_compress dbg l m : Forall2 R l m -> same_outcome R (gm_compress dbg P l) (gm_compress dbg Q m).
    Proof.
      intros K. unfold gm_compress. eapply so_bind; [apply so_idx, K|]. intros a b Kab. eapply so_bind; [apply so_idx, K|]. intros c e Kce.
      eapply so_bind; [apply u_gm_permutation; repeat constructor; auto with uni|]. intros. now apply so_idx.
    Qed.
  End GM.

  (** *** Neptune *)
  Section NP.
    Context (P : NeptuneParams F) (Q : NeptuneParams G) (H : np_related R P Q).
    Lemma u_np_sbox_d a b : R a b -> same_outcome R (np_sbox_d P a) (np_sbox_d Q b).
    Proof.
      intros Hab. unfold np_sbox_d. rewrite (rn_d _ _ _ H). destruct (np_d Q) as [|[|[|[|[|[|[|[|?]]]]]]]]; cbn [same_outcome]; cbv zeta; auto 12 with uni.
    Qed.
    Lemma u_np_prime a b a' b' : R a a' -> R b b' ->
      R (fst (np_external_sbox_prime P a b)) (fst (np_external_sbox_prime Q a' b')) /\
      R (snd (np_external_sbox_prime P a b)) (snd (np_external_sbox_prime Q a' b')).
    Proof. intros K K'. pose proof (rn_gamma _ _ _ H). unfold np_external_sbox_prime. cbn [fst snd]. split; auto 15 with uni. Qed.
    Lemma u_np_esbox l m : Forall2 R l m -> so (np_external_sbox P l) (np_external_sbox Q m).
    Proof.
      intros K. unfold np_external_sbox. rewrite (f2_len _ _ _ K). apply so_range; [|apply r_zeros]. intros i o o' Ko.
      eapply so_bind; [apply so_idx, K|]. intros a a' Ka. eapply so_bind; [apply so_idx, K|]. intros b b' Kb.
      destruct (u_np_prime a b a' b' Ka Kb) as [K1 K2]. cbv zeta. eapply so_bind; [apply so_upd; [exact Ko|exact K1]|]. intros. now apply so_upd.
    Qed.
    Lemma u_np_isbox l m : Forall2 R l m -> so (np_internal_sbox P l) (np_internal_sbox Q m).
    Proof.
      intros K. unfold np_internal_sbox. eapply so_bind; [apply so_idx, K|]. intros. eapply so_bind; [apply u_np_sbox_d; eassumption|]. intros. now apply so_upd.
    Qed.
    Lemma u_np_4 l m : Forall2 R l m -> so (np_external_matmul_4 l) (np_external_matmul_4 m).
    Proof. intros K. unfold np_external_matmul_4. go. Qed.
    Lemma u_np_8 l m : Forall2 R l m -> so (np_external_matmul_8 l) (np_external_matmul_8 m).
    Proof.
      intros K. unfold np_external_matmul_8. eapply so_bind; [apply so_swap, K|]. intros o1 o1' K1. eapply so_bind; [apply so_swap, K1|]. intros o o' Ko.
      eapply so_bind; [apply so_idx, K|]. intros a a' Ka. eapply so_bind; [apply so_idx, K|]. intros b b' Kb. cbv zeta.
      eapply so_bind; [apply so_rotl, Ko|]. intros q q' Kq. rewrite (f2_len _ _ _ Ko).
      eapply (so_bind (Forall2 R)); [|intros; now apply so_swap]. eapply so_for; [apply f2_number, Kq| |exact Ko].
      intros [i x] [i' x'] s s' [E Kx] Ks. cbn [fst snd] in *. subst i'. eapply so_bind; [apply so_idx, Ks|]. intros. apply so_upd; [exact Ks|].
      destruct (i mod 2 =? 0); auto 10 with uni.
    Qed.
    Lemma u_np_ext l m : Forall2 R l m -> so (np_external_matmul P l) (np_external_matmul Q m).
    Proof.
      intros K. pose proof (rn_me _ _ _ H). unfold rows_related in *. pose proof (u_np_4 l m K). pose proof (u_np_8 l m K).
      unfold np_external_matmul. cbv zeta. rewrite (rn_t _ _ _ H). destruct (np_t Q =? 4); [assumption|]. destruct (np_t Q =? 8); [assumption|]. go.
    Qed.
    Lemma u_np_int l m : Forall2 R l m -> so (np_internal_matmul P l) (np_internal_matmul Q m).
    Proof.
      intros K. pose proof (rn_mu _ _ _ H) as Km. unfold np_internal_matmul. rewrite (f2_len _ _ _ K), (f2_len _ _ _ Km). go.
    Qed.
    Lemma u_np_eround r l m : Forall2 R l m -> so (np_external_round P r l) (np_external_round Q r m).
    Proof.
      intros K. unfold np_external_round. eapply so_bind; [apply u_np_esbox, K|]. intros. eapply so_bind; [apply u_np_ext; eassumption|]. intros.
      eapply so_bind; [apply so_idx, (rn_rc _ _ _ H)|]. intros. now apply r_add_rc.
    Qed.
    Lemma u_np_iround r l m : Forall2 R l m -> so (np_internal_round P r l) (np_internal_round Q r m).
    Proof.
      intros K. unfold np_internal_round. eapply so_bind; [apply u_np_isbox, K|]. intros. eapply so_bind; [apply u_np_int; eassumption|]. intros.
      eapply so_bind; [apply so_idx, (rn_rc _ _ _ H)|]. intros. now apply r_add_rc.
    Qed.
    Lemma u_np_permutation dbg l m : Forall2 R l m -> so (np_permutation dbg P l) (np_permutation dbg Q m).
    Proof.
      intros K. unfold np_permutation. rewrite (f2_len _ _ _ K), (rn_t _ _ _ H), (rn_beg _ _ _ H), (rn_p _ _ _ H), (rn_rounds _ _ _ H).
      eapply so_bind; [apply so_same|]. intros _ _ _. eapply so_bind; [apply u_np_ext, K|]. intros a b Kab.
      eapply so_bind; [apply so_range; [|exact Kab]; intros; now apply u_np_eround|]. intros c e Kce. eapply so_bind; [apply so_same|]. intros ? n ->.
      eapply so_bind; [apply so_range; [|exact Kce]; intros; now apply u_np_iround|]. intros. apply so_range; [|assumption]. intros. now apply u_np_eround.
    Qed.
    Lemma u_np_compress dbg l m : Forall2 R l m -> same_outcome R (np_compress dbg P l) (np_compress dbg Q m).
    Proof.
      intros K. unfold np_compress. eapply so_bind; [apply so_idx, K|]. intros a b Kab. eapply so_bind; [apply so_idx, K|]. intros c e Kce.
      eapply so_bind; [apply u_np_permutation; repeat constructor; auto with uni|]. intros. now apply so_idx.
    Qed.
  End NP.
End Sims.

(** ** The Merkle tree over field elements *)
Section Tree.
  Context {A B : Type} (Q : A -> B -> Prop) (h : list A -> res A) (k : list B -> res B).
  Context (Hk : forall l m, Forall2 Q l m -> same_outcome Q (h l) (k m)).
  Lemma u_level l m : Forall2 Q l m -> same_outcome (Forall2 Q) (fp_level h l) (fp_level k m).
  Proof.
    intros H. unfold fp_level. rewrite (f2_len _ _ _ H). apply (so_for eq); [apply f2_same| |constructor]. intros x y a b -> Hab.
    eapply so_bind; [apply so_idx, H|]. intros. eapply so_bind; [apply so_idx, H|]. intros. eapply so_bind; [apply Hk; repeat constructor; assumption|].
    intros. apply Forall2_app; [assumption|repeat constructor; assumption].
  Qed.
  Lemma u_levels fuel l m : Forall2 Q l m -> same_outcome (Forall2 Q) (fp_levels fuel h l) (fp_levels fuel k m).
  Proof.
    revert l m. induction fuel as [|n IH]; intros l m H; cbn [fp_levels]; [exact Logic.I|]. rewrite (f2_len _ _ _ H). destruct (1 <? length l); [|exact H].
    eapply so_bind; [apply u_level, H|]. intros. now apply IH.
  Qed.
  Lemma u_accumulate dbg fuel l m : Forall2 Q l m -> same_outcome Q (fp_accumulate dbg fuel h l) (fp_accumulate dbg fuel k m).
  Proof.
    intros H. unfold fp_accumulate. rewrite (f2_len _ _ _ H). eapply so_bind; [apply so_same|]. intros ? b1 ->.
    eapply so_bind; [apply so_same|]. intros ? b2 ->.
    eapply (so_bind (Forall2 Q)).
    { unfold fp_pad. rewrite (f2_len _ _ _ H). apply so_range; [|exact H]. intros i a b Hab. eapply so_bind; [apply so_same|]. intros ? j ->.
      eapply so_bind; [apply so_idx, Hab|]. intros. apply Forall2_app; [assumption|repeat constructor; assumption]. }
    intros. eapply so_bind; [apply u_levels; eassumption|]. intros. now apply so_idx.
  Qed.
End Tree.

(** ** Equal arithmetic *)
Lemma f2_eq {A} (l : list A) : Forall2 eq l l. Proof. apply f2_same. Qed.
Lemma f2_eq_inv {A} (l m : list A) : Forall2 eq l m -> l = m.
Proof. intros H. induction H; congruence. Qed.
Lemma rows_eq {A} (l : list (list A)) : rows_related eq l l.
Proof. induction l; constructor; auto. apply f2_eq. Qed.
Lemma so_eq {A} (x y : res A) : same_outcome eq x y -> x = y.
Proof. destruct x, y; simpl; intros H; try contradiction; congruence. Qed.
Lemma so_eq_list {A} (x y : res (list A)) : same_outcome (Forall2 eq) x y -> x = y.
Proof. destruct x, y; simpl; intros H; try contradiction; try reflexivity. f_equal. now apply f2_eq_inv. Qed.
Section Same.
  Context {F : Type} (A B : FOps F) (HAB : same_arithmetic A B).
  Lemma sa_respects : respects A B eq.
  Proof.
    destruct HAB as (H0 & H1 & Ha & Hs & Hm). constructor; auto; intros; subst; auto.
  Qed.
  Lemma p2_refl (P : Poseidon2Params F) : p2_related eq P P.
  Proof. constructor; auto using f2_eq, rows_eq. Qed.
  Lemma ps_refl (P : PoseidonParams F) : ps_related eq P P.
  Proof. constructor; auto using f2_eq, rows_eq. Qed.
  Lemma gm_refl (P : GmimcParams F) : gm_related eq P P.
  Proof. constructor; auto using f2_eq, rows_eq. Qed.
  Lemma np_refl (P : NeptuneParams F) : np_related eq P P.
  Proof. constructor; auto using f2_eq, rows_eq. Qed.
  Lemma sa_p2 dbg P x : @p2_permutation F A dbg P x = @p2_permutation F B dbg P x.
  Proof. apply so_eq_list, u_p2_permutation; [apply sa_respects|apply p2_refl|apply f2_eq]. Qed.
  Lemma sa_ps dbg P x : @ps_permutation F A dbg P x = @ps_permutation F B dbg P x.
  Proof. apply so_eq_list, u_ps_permutation; [apply sa_respects|apply ps_refl|apply f2_eq]. Qed.
  Lemma sa_ps_not_opt dbg P x : @ps_permutation_not_opt F A dbg P x = @ps_permutation_not_opt F B dbg P x.
  Proof. apply so_eq_list, u_ps_permutation_not_opt; [apply sa_respects|apply ps_refl|apply f2_eq]. Qed.
  Lemma sa_gm dbg P x : @gm_permutation F A dbg P x = @gm_permutation F B dbg P x.
  Proof. apply so_eq_list, u_gm_permutation; [apply sa_respects|apply gm_refl|apply f2_eq]. Qed.
  Lemma sa_gm_not_opt dbg P x : @gm_permutation_not_opt F A dbg P x = @gm_permutation_not_opt F B dbg P x.
  Proof. apply so_eq_list, u_gm_not_opt; [apply sa_respects|apply gm_refl|apply f2_eq]. Qed.
  Lemma sa_np dbg P x : @np_permutation F A dbg P x = @np_permutation F B dbg P x.
  Proof. apply so_eq_list, u_np_permutation; [apply sa_respects|apply np_refl|apply f2_eq]. Qed.
End Same.
Lemma same_arithmetic_all F (A B : FOps F) : same_arithmetic A B -> forall dbg,
  (forall P x, @p2_permutation F A dbg P x = @p2_permutation F B dbg P x) /\
  (forall P x, @ps_permutation F A dbg P x = @ps_permutation F B dbg P x) /\
  (forall P x, @ps_permutation_not_opt F A dbg P x = @ps_permutation_not_opt F B dbg P x) /\
  (forall P x, @gm_permutation F A dbg P x = @gm_permutation F B dbg P x) /\
  (forall P x, @gm_permutation_not_opt F A dbg P x = @gm_permutation_not_opt F B dbg P x) /\
  (forall P x, @np_permutation F A dbg P x = @np_permutation F B dbg P x).
Proof. intros H dbg. repeat split; intros; auto using sa_p2, sa_ps, sa_ps_not_opt, sa_gm, sa_gm_not_opt, sa_np. Qed.

(** ** Reduction modulo p at the end *)
Lemma f2_map {A B} (f : A -> B) l : Forall2 (fun a b => f a = b) l (map f l).
Proof. induction l; simpl; constructor; auto. Qed.
Lemma f2_map_inv {A B} (f : A -> B) l m : Forall2 (fun a b => f a = b) l m -> m = map f l.
Proof. intros H. induction H; simpl; congruence. Qed.
Lemma rows_map {A B} (f : A -> B) l : rows_related (fun a b => f a = b) l (map (map f) l).
Proof. induction l; simpl; constructor; auto. apply f2_map. Qed.
Lemma so_map {A B} (f : A -> B) x y : same_outcome (fun a b => f a = b) x y -> y = res_map f x.
Proof. destruct x, y; simpl; intros H; try contradiction; congruence. Qed.
Lemma so_map_list {A B} (f : A -> B) x y : same_outcome (Forall2 (fun a b => f a = b)) x y -> y = res_map (map f) x.
Proof. destruct x, y; simpl; intros H; try contradiction; try reflexivity. f_equal. now apply f2_map_inv. Qed.
Section Hom.
  Context {F G : Type} (f : F -> G).
  Lemma p2_mapped P : p2_related (fun a b => f a = b) P (p2_map f P).
  Proof. constructor; cbn; auto using f2_map, rows_map. Qed.
  Lemma ps_mapped P : ps_related (fun a b => f a = b) P (ps_map f P).
  Proof. constructor; cbn; auto using f2_map, rows_map. Qed.
  Lemma gm_mapped P : gm_related (fun a b => f a = b) P (gm_map f P).
  Proof. constructor; cbn; auto using f2_map, rows_map. Qed.
  Lemma np_mapped P : np_related (fun a b => f a = b) P (np_map f P).
  Proof. constructor; cbn; auto using f2_map, rows_map. now destruct (np_abc P) as [[a b] c]. Qed.
End Hom.
Section Reduce.
  Context {F : Type} {Fo : FOps F} {p : Z} (HP : is_prime_field Fo p).
  Lemma red_respects : respects integer_ops Fo (fun z a => f_of_Z z = a).
  Proof.
    constructor; cbn; intros; subst.
    - apply (f_of_Z_0 HP).
    - apply (f_of_Z_1 HP).
    - apply (f_of_Z_add HP).
    - apply (f_of_Z_sub HP).
    - apply (f_of_Z_mul HP).
  Qed.
  Lemma red_p2 dbg P x : p2_permutation dbg (p2_map f_of_Z P) (map f_of_Z x) = res_map (map f_of_Z) (p2_permutation (Fo := integer_ops) dbg P x).
  Proof. apply so_map_list, (u_p2_permutation _ red_respects); [apply p2_mapped|apply f2_map]. Qed.
  Lemma red_ps dbg P x : ps_permutation dbg (ps_map f_of_Z P) (map f_of_Z x) = res_map (map f_of_Z) (ps_permutation (Fo := integer_ops) dbg P x).
  Proof. apply so_map_list, (u_ps_permutation _ red_respects); [apply ps_mapped|apply f2_map]. Qed.
  Lemma red_gm dbg P x : gm_permutation dbg (gm_map f_of_Z P) (map f_of_Z x) = res_map (map f_of_Z) (gm_permutation (Fo := integer_ops) dbg P x).
  Proof. apply so_map_list, (u_gm_permutation _ red_respects); [apply gm_mapped|apply f2_map]. Qed.
  Lemma red_np dbg P x : np_permutation dbg (np_map f_of_Z P) (map f_of_Z x) = res_map (map f_of_Z) (np_permutation (Fo := integer_ops) dbg P x).
  Proof. apply so_map_list, (u_np_permutation _ red_respects); [apply np_mapped|apply f2_map]. Qed.
End Reduce.
Lemma reduce_all F (Fo : FOps F) p : is_prime_field Fo p -> forall dbg,
  (forall P x, p2_permutation dbg (p2_map f_of_Z P) (map f_of_Z x) = res_map (map f_of_Z) (p2_permutation (Fo := integer_ops) dbg P x)) /\
  (forall P x, ps_permutation dbg (ps_map f_of_Z P) (map f_of_Z x) = res_map (map f_of_Z) (ps_permutation (Fo := integer_ops) dbg P x)) /\
  (forall P x, gm_permutation dbg (gm_map f_of_Z P) (map f_of_Z x) = res_map (map f_of_Z) (gm_permutation (Fo := integer_ops) dbg P x)) /\
  (forall P x, np_permutation dbg (np_map f_of_Z P) (map f_of_Z x) = res_map (map f_of_Z) (np_permutation (Fo := integer_ops) dbg P x)).
Proof. intros HP dbg. repeat split; intros; [apply (red_p2 HP)|apply (red_ps HP)|apply (red_gm HP)|apply (red_np HP)]. Qed.

(** ** One fixed list of expressions *)
Definition expr_ops : FOps expr :=
  {| f0 := Zero; f1 := One; fadd := Add; fsub := Sub; fmul := Mul; finv := fun _ => Zero; feqb := fun _ _ => false;
     f_of_Z := fun _ => Zero; f_to_Z := fun _ => 0%Z |}.
Definition vars (k n : nat) : list expr := map Var (seq k n).
Fixpoint var_rows (k : nat) (sh : list nat) : list (list expr) :=
  match sh with [] => [] | n :: sh' => vars k n :: var_rows (k + n) sh' end.
Lemma length_concat_shape {F} (rows : list (list F)) : length (concat rows) = list_sum (shape rows).
Proof. induction rows; simpl; [reflexivity|]. rewrite app_length. now f_equal. Qed.
Section Expr.
  Context {F : Type} {Fo : FOps F}.
  Definition denotes (env : list F) (e : expr) (a : F) : Prop := eval env e = a.
  Lemma den_respects env : respects expr_ops Fo (denotes env).
  Proof. constructor; unfold denotes; cbn; intros; subst; reflexivity. Qed.
  Lemma den_vars env pre l post k n : env = pre ++ l ++ post -> k = length pre -> n = length l -> Forall2 (denotes env) (vars k n) l.
  Proof.
    intros -> -> ->. revert pre. induction l as [|a l IH]; intros pre; simpl; [constructor|]. constructor.
    - unfold denotes. cbn [eval]. rewrite app_nth2 by lia. now rewrite Nat.sub_diag.
    - specialize (IH (pre ++ [a])). rewrite app_length in IH. simpl in IH. rewrite Nat.add_1_r, <- app_assoc in IH. exact IH.
  Qed.
  Lemma den_rows env pre rows post k sh : env = pre ++ concat rows ++ post -> k = length pre -> sh = shape rows -> rows_related (denotes env) (var_rows k sh) rows.
  Proof.
    intros -> -> ->. revert pre. induction rows as [|r rows IH]; intros pre; simpl; [constructor|]. constructor.
    - eapply den_vars; [rewrite <- app_assoc; reflexivity|reflexivity|reflexivity].
    - specialize (IH (pre ++ r)). rewrite app_length, <- !app_assoc in IH. rewrite <- app_assoc. exact IH.
  Qed.
  Lemma so_den env x y : same_outcome (Forall2 (denotes env)) x y -> y = evaluates env x.
  Proof. destruct x, y; simpl; intros H; try contradiction; try reflexivity. f_equal. now apply f2_map_inv. Qed.
End Expr.

Lemma p2_expr dbg t d beg rp rounds nd sh n : exists o : res (list expr), forall F (Fo : FOps F) (P : Poseidon2Params F) x,
  p2_t P = t -> p2_d P = d -> p2_rounds_f_beginning P = beg -> p2_rounds_p P = rp -> p2_rounds P = rounds ->
  length (p2_diag P) = nd -> shape (p2_rc P) = sh -> length x = n ->
  p2_permutation dbg P x = evaluates (x ++ p2_diag P ++ concat (p2_rc P)) o.
Proof.
  exists (p2_permutation (Fo := expr_ops) dbg {| p2_t := t; p2_d := d; p2_rounds_f_beginning := beg; p2_rounds_p := rp; p2_rounds_f_end := 0;
    p2_rounds := rounds; p2_diag := vars n nd; p2_mat_internal := []; p2_rc := var_rows (n + nd) sh |} (vars 0 n)).
  intros F Fo P x Ht Hd Hb Hp Hr Hn Hs Hx. apply so_den, (u_p2_permutation _ (den_respects _)).
  - constructor; cbn; auto.
    + eapply den_vars; [reflexivity|now rewrite Hx|now rewrite Hn].
    + apply (den_rows _ (x ++ p2_diag P) (p2_rc P) []); [now rewrite app_nil_r, <- app_assoc|rewrite app_length; congruence|congruence].
  - apply (den_vars _ [] x (p2_diag P ++ concat (p2_rc P))); auto.
Qed.
Lemma gm_expr dbg t d rounds k n : exists o o' : res (list expr), forall F (Fo : FOps F) (P : GmimcParams F) x,
  gm_t P = t -> gm_d P = d -> gm_rounds P = rounds -> length (gm_rc P) = k -> length x = n ->
  gm_permutation dbg P x = evaluates (x ++ gm_rc P) o /\ gm_permutation_not_opt dbg P x = evaluates (x ++ gm_rc P) o'.
Proof.
  set (Q := {| gm_t := t; gm_d := d; gm_rounds := rounds; gm_rc := vars n k |}).
  exists (gm_permutation (Fo := expr_ops) dbg Q (vars 0 n)), (gm_permutation_not_opt (Fo := expr_ops) dbg Q (vars 0 n)).
  intros F Fo P x Ht Hd Hr Hk Hx.
  assert (K : gm_related (denotes (x ++ gm_rc P)) Q P).
  { constructor; cbn; auto. apply (den_vars _ x (gm_rc P) []); [now rewrite app_nil_r|congruence|congruence]. }
  assert (K' : Forall2 (denotes (x ++ gm_rc P)) (vars 0 n) x) by (apply (den_vars _ [] x (gm_rc P)); auto).
  split; apply so_den; [apply (u_gm_permutation _ (den_respects _))|apply (u_gm_not_opt _ (den_respects _))]; assumption.
Qed.
Lemma ps_expr dbg t d beg rp rounds s1 s2 s3 s4 s5 s6 n : exists o o' : res (list expr), forall F (Fo : FOps F) (P : PoseidonParams F) x,
  ps_t P = t -> ps_d P = d -> ps_rounds_f_beginning P = beg -> ps_rounds_p P = rp -> ps_rounds P = rounds ->
  shape (ps_mds P) = s1 -> shape (ps_rc P) = s2 -> shape (ps_opt_rc P) = s3 -> shape (ps_w_hat P) = s4 -> shape (ps_v P) = s5 -> shape (ps_m_i P) = s6 ->
  length x = n ->
  let env := x ++ concat (ps_mds P) ++ concat (ps_rc P) ++ concat (ps_opt_rc P) ++ concat (ps_w_hat P) ++ concat (ps_v P) ++ concat (ps_m_i P) in
  ps_permutation dbg P x = evaluates env o /\ ps_permutation_not_opt dbg P x = evaluates env o'.
Proof.
  set (k1 := n + list_sum s1). set (k2 := k1 + list_sum s2). set (k3 := k2 + list_sum s3). set (k4 := k3 + list_sum s4). set (k5 := k4 + list_sum s5).
  set (Q := {| ps_t := t; ps_d := d; ps_rounds_f_beginning := beg; ps_rounds_p := rp; ps_rounds_f_end := 0; ps_rounds := rounds;
               ps_mds := var_rows n s1; ps_rc := var_rows k1 s2; ps_opt_rc := var_rows k2 s3; ps_w_hat := var_rows k3 s4; ps_v := var_rows k4 s5; ps_m_i := var_rows k5 s6 |}).
  exists (ps_permutation (Fo := expr_ops) dbg Q (vars 0 n)), (ps_permutation_not_opt (Fo := expr_ops) dbg Q (vars 0 n)).
  intros F Fo P x Ht Hd Hb Hp Hr H1 H2 H3 H4 H5 H6 Hx env.
  assert (K : ps_related (denotes env) Q P).
  { constructor; cbn; auto.
    - apply (den_rows _ x (ps_mds P) (concat (ps_rc P) ++ concat (ps_opt_rc P) ++ concat (ps_w_hat P) ++ concat (ps_v P) ++ concat (ps_m_i P)));
        [reflexivity|congruence|congruence].
    - apply (den_rows _ (x ++ concat (ps_mds P)) (ps_rc P) (concat (ps_opt_rc P) ++ concat (ps_w_hat P) ++ concat (ps_v P) ++ concat (ps_m_i P)));
        [unfold env; now rewrite <- !app_assoc|rewrite !app_length, !length_concat_shape; unfold k1; congruence|congruence].
    - apply (den_rows _ (x ++ concat (ps_mds P) ++ concat (ps_rc P)) (ps_opt_rc P) (concat (ps_w_hat P) ++ concat (ps_v P) ++ concat (ps_m_i P)));
        [unfold env; now rewrite <- !app_assoc|rewrite !app_length, !length_concat_shape; unfold k2, k1; rewrite H1, H2; lia|congruence].
    - apply (den_rows _ (x ++ concat (ps_mds P) ++ concat (ps_rc P) ++ concat (ps_opt_rc P)) (ps_w_hat P) (concat (ps_v P) ++ concat (ps_m_i P)));
        [unfold env; now rewrite <- !app_assoc|rewrite !app_length, !length_concat_shape; unfold k3, k2, k1; rewrite H1, H2, H3; lia|congruence].
    - apply (den_rows _ (x ++ concat (ps_mds P) ++ concat (ps_rc P) ++ concat (ps_opt_rc P) ++ concat (ps_w_hat P)) (ps_v P) (concat (ps_m_i P)));
        [unfold env; now rewrite <- !app_assoc|rewrite !app_length, !length_concat_shape; unfold k4, k3, k2, k1; rewrite H1, H2, H3, H4; lia|congruence].
    - apply (den_rows _ (x ++ concat (ps_mds P) ++ concat (ps_rc P) ++ concat (ps_opt_rc P) ++ concat (ps_w_hat P) ++ concat (ps_v P)) (ps_m_i P) []);
        [unfold env; now rewrite <- !app_assoc, app_nil_r|rewrite !app_length, !length_concat_shape; unfold k5, k4, k3, k2, k1; rewrite H1, H2, H3, H4, H5; lia|congruence]. }
  assert (K' : Forall2 (denotes env) (vars 0 n) x) by (apply (den_vars _ [] x (concat (ps_mds P) ++ concat (ps_rc P) ++ concat (ps_opt_rc P) ++ concat (ps_w_hat P) ++ concat (ps_v P) ++ concat (ps_m_i P))); auto).
  split; apply so_den; [apply (u_ps_permutation _ (den_respects _))|apply (u_ps_permutation_not_opt _ (den_respects _))]; assumption.
Qed.
Lemma np_expr dbg t d beg rp rounds s1 s2 k n : exists o : res (list expr), forall F (Fo : FOps F) (P : NeptuneParams F) x,
  np_t P = t -> np_d P = d -> np_rounds_f_beginning P = beg -> np_rounds_p P = rp -> np_rounds P = rounds ->
  shape (np_rc P) = s1 -> shape (np_m_e P) = s2 -> length (np_mu P) = k -> length x = n ->
  np_permutation dbg P x = evaluates (x ++ concat (np_rc P) ++ concat (np_m_e P) ++ np_mu P ++ [snd (np_abc P)]) o.
Proof.
  set (k1 := n + list_sum s1). set (k2 := k1 + list_sum s2).
  set (Q := {| np_t := t; np_d := d; np_rounds_f_beginning := beg; np_rounds_p := rp; np_rounds_f_end := 0; np_rounds := rounds;
               np_rc := var_rows n s1; np_m_e := var_rows k1 s2; np_mu := vars k2 k; np_abc := (Zero, Zero, Var (k2 + k)); np_a_ := (Zero, Zero, Zero) |}).
  exists (np_permutation (Fo := expr_ops) dbg Q (vars 0 n)).
  intros F Fo P x Ht Hd Hb Hp Hr H1 H2 Hk Hx. set (env := x ++ concat (np_rc P) ++ concat (np_m_e P) ++ np_mu P ++ [snd (np_abc P)]).
  apply so_den, (u_np_permutation _ (den_respects _)).
  - constructor; cbn; auto.
    + apply (den_rows _ x (np_rc P) (concat (np_m_e P) ++ np_mu P ++ [snd (np_abc P)])); [reflexivity|congruence|congruence].
    + apply (den_rows _ (x ++ concat (np_rc P)) (np_m_e P) (np_mu P ++ [snd (np_abc P)]));
        [unfold env; now rewrite <- !app_assoc|rewrite !app_length, !length_concat_shape; unfold k1; congruence|congruence].
    + apply (den_vars _ (x ++ concat (np_rc P) ++ concat (np_m_e P)) (np_mu P) [snd (np_abc P)]);
        [unfold env; now rewrite <- !app_assoc|rewrite !app_length, !length_concat_shape; unfold k2, k1; rewrite H1, H2; lia|congruence].
    + unfold denotes. cbn [eval].
      replace env with ((x ++ concat (np_rc P) ++ concat (np_m_e P) ++ np_mu P) ++ [snd (np_abc P)]) by (unfold env; now rewrite <- !app_assoc).
      assert (E : k2 + k = length (x ++ concat (np_rc P) ++ concat (np_m_e P) ++ np_mu P))
        by (rewrite !app_length, !length_concat_shape; unfold k2, k1; rewrite H1, H2; lia).
      rewrite E, app_nth2 by lia. now rewrite Nat.sub_diag.
  - apply (den_vars _ [] x (concat (np_rc P) ++ concat (np_m_e P) ++ np_mu P ++ [snd (np_abc P)])); auto.
Qed.

(** ** The constructor of Poseidon does compare *)
Definition blind {F} (A : FOps F) : FOps F :=
  {| f0 := @f0 F A; f1 := @f1 F A; fadd := @fadd F A; fsub := @fsub F A; fmul := @fmul F A; finv := @finv F A; feqb := fun _ _ => true;
     f_of_Z := @f_of_Z F A; f_to_Z := @f_to_Z F A |}.
Lemma constructor_compares :
  exists F (A B : FOps F) dbg t d rf rp mds rc, is_prime_field A 13 /\ same_arithmetic A B /\
    (exists P, @ps_new F A dbg t d rf rp mds rc = Ok P) /\ @ps_new F B dbg t d rf rp mds rc = Panic.
Proof.
  exists F13, F13_ops, (blind F13_ops), true, 3, 5, 2, 3, (map l13 [[2;3;1];[5;7;8];[1;1;4]]%Z), (map l13 [[1;2;3];[4;5;6];[7;8;9];[10;11;12];[3;1;2]]%Z).
  split; [exact F13_field|]. split; [repeat split; reflexivity|]. split; [|vm_compute; reflexivity].
  destruct (ps_new true 3 5 2 3 (map l13 [[2;3;1];[5;7;8];[1;1;4]]%Z) (map l13 [[1;2;3];[4;5;6];[7;8;9];[10;11;12];[3;1;2]]%Z)) as [P| |] eqn:E;
    [now exists P|vm_compute in E; discriminate E|vm_compute in E; discriminate E].
Qed.

(** ** Statements for Props_Uniform *)
Section All.
  Context (F G : Type) (Fo : FOps F) (Go : FOps G) (R : F -> G -> Prop) (HR : respects Fo Go R).
  Lemma u_p2_all P Q : p2_related R P Q -> forall dbg x y, Forall2 R x y ->
    same_outcome (Forall2 R) (p2_permutation dbg P x) (p2_permutation dbg Q y) /\ same_outcome R (p2_compress dbg P x) (p2_compress dbg Q y).
  Proof. intros H dbg x y K. split; [now apply u_p2_permutation|now apply u_p2_compress]. Qed.
  Lemma u_ps_all P Q : ps_related R P Q -> forall dbg x y, Forall2 R x y ->
    same_outcome (Forall2 R) (ps_permutation dbg P x) (ps_permutation dbg Q y) /\
    same_outcome (Forall2 R) (ps_permutation_not_opt dbg P x) (ps_permutation_not_opt dbg Q y) /\
    same_outcome R (ps_compress dbg P x) (ps_compress dbg Q y).
  Proof. intros H dbg x y K. split; [now apply u_ps_permutation|]. split; [now apply u_ps_permutation_not_opt|now apply u_ps_compress]. Qed.
  Lemma u_gm_all P Q : gm_related R P Q -> forall dbg x y, Forall2 R x y ->
    same_outcome (Forall2 R) (gm_permutation dbg P x) (gm_permutation dbg Q y) /\
    same_outcome (Forall2 R) (gm_permutation_not_opt dbg P x) (gm_permutation_not_opt dbg Q y) /\
    same_outcome R (gm_compress dbg P x) (gm_compress dbg Q y).
  Proof. intros H dbg x y K. split; [now apply u_gm_permutation|]. split; [now apply u_gm_not_opt|now apply u_gm_compress]. Qed.
  Lemma u_np_all P Q : np_related R P Q -> forall dbg x y, Forall2 R x y ->
    same_outcome (Forall2 R) (np_permutation dbg P x) (np_permutation dbg Q y) /\ same_outcome R (np_compress dbg P x) (np_compress dbg Q y).
  Proof. intros H dbg x y K. split; [now apply u_np_permutation|now apply u_np_compress]. Qed.
End All.
