(** * ProofPrint: get_alpha and to_hex *)
From Coq Require Import Ascii String Znumtheory.
From Verif Require Import Base Field SpecHex SpecInstances ModelHex ModelFields ModelInstances ModelPrint.
From Verif Require ProofHex ProofKats ProofInstances.
Local Open Scope nat_scope.

(** ** get_alpha *)
Lemma get_alpha_from_ok p a0 : (1 < p)%Z -> (Z.gcd a0 (p - 1) = 1)%Z -> forall k alpha fuel, (0 <= alpha)%Z -> alpha = (a0 - Z.of_nat k)%Z -> (a0 < p)%Z -> S k <= fuel ->
  exists a, get_alpha_from fuel p alpha = Ok a /\ (alpha <= a <= a0)%Z /\ (Z.gcd a (p - 1) = 1)%Z /\
    (forall b, alpha <= b < a -> Z.gcd b (p - 1) <> 1)%Z /\ forall fuel', S k <= fuel' -> get_alpha_from fuel' p alpha = Ok a.
Proof.
  intros Hp H0. induction k as [|k IH]; intros alpha fuel Ha Hk Hap Hf.
  - destruct fuel as [|fuel]; [lia|]. rewrite Z.sub_0_r in Hk. subst alpha. exists a0. cbn [get_alpha_from]. rewrite (proj2 (Z.eqb_eq _ _) H0).
    split; [reflexivity|]. split; [lia|]. split; [exact H0|]. split; [intros b Hb; lia|]. intros [|f'] Hf'; [lia|]. cbn [get_alpha_from]. rewrite (proj2 (Z.eqb_eq _ _) H0). reflexivity.
  - destruct fuel as [|fuel]; [lia|]. cbn [get_alpha_from]. destruct (Z.eqb_spec (Z.gcd alpha (p - 1)) 1) as [E|N].
    + exists alpha. split; [reflexivity|]. split; [lia|]. split; [exact E|]. split; [intros b Hb; lia|].
      intros [|f'] Hf'; [lia|]. cbn [get_alpha_from]. rewrite (proj2 (Z.eqb_eq _ _) E). reflexivity.
    + destruct (Z.ltb_spec (alpha + 1) p); [|lia].
      destruct (IH (alpha + 1)%Z fuel ltac:(lia) ltac:(lia) Hap ltac:(lia)) as [a [E1 [E2 [E3 [E4 E5]]]]].
      exists a. split; [exact E1|]. split; [lia|]. split; [exact E3|]. split.
      * intros b Hb. destruct (Z.eq_dec b alpha) as [->|Nb]; [exact N|]. apply E4. lia.
      * intros [|f'] Hf'; [lia|]. cbn [get_alpha_from]. rewrite (proj2 (Z.eqb_neq _ _) N). destruct (Z.ltb_spec (alpha + 1) p); [|lia]. apply E5. lia.
Qed.
Theorem get_alpha_ok p : (5 <= p)%Z -> exists a, (3 <= a < p - 1)%Z /\ (Z.gcd a (p - 1) = 1)%Z /\
  (forall b, 3 <= b < a -> Z.gcd b (p - 1) <> 1)%Z /\ forall fuel, Z.to_nat p <= fuel -> get_alpha fuel p = Ok a.
Proof.
  intros Hp. assert (G : (Z.gcd (p - 2) (p - 1) = 1)%Z).
  { rewrite Z.gcd_comm. replace (p - 1)%Z with (1 + 1 * (p - 2))%Z by lia. rewrite Z.gcd_comm, Z.gcd_add_mult_diag_r. apply Z.gcd_1_r. }
  destruct (get_alpha_from_ok p (p - 2) ltac:(lia) G (Z.to_nat (p - 5)) 3 (Z.to_nat p) ltac:(lia) ltac:(lia) ltac:(lia) ltac:(lia)) as [a [E1 [E2 [E3 [E4 E5]]]]].
  exists a. split; [lia|]. split; [exact E3|]. split; [exact E4|]. intros fuel Hf. unfold get_alpha.
  destruct (Z.ltb_spec 3 p); [|lia]. apply E5. lia.
Qed.

(** ** Hexadecimal text *)
Lemma length_append s1 s2 : String.length (s1 ++ s2) = String.length s1 + String.length s2.
Proof. induction s1 as [|c s1 IH]; cbn; [reflexivity|]. rewrite IH. reflexivity. Qed.
Lemma zeros_length n : String.length (zeros n) = n.
Proof. induction n as [|n IH]; cbn; congruence. Qed.
Lemma substring_full s : substring 0 (String.length s) s = s.
Proof. induction s as [|c s IH]; cbn; [reflexivity|]. rewrite IH. reflexivity. Qed.
Lemma numeral_length n z : String.length (numeral lower_digits n z) = n.
Proof. induction n as [|n IH]; cbn [numeral String.length]; congruence. Qed.
Lemma numeral_pad n k z : (0 <= z < 16 ^ Z.of_nat k)%Z -> numeral lower_digits (n + k) z = (zeros n ++ numeral lower_digits k z)%string.
Proof.
  intros Hz. induction n as [|n IH]; [reflexivity|]. cbn [Nat.add numeral zeros append]. rewrite IH.
  assert (E : (z / 16 ^ Z.of_nat (n + k) = 0)%Z).
  { apply Z.div_small. split; [lia|]. eapply Z.lt_le_trans; [apply Hz|]. apply Z.pow_le_mono_r; lia. }
  rewrite E. reflexivity.
Qed.
Lemma hex_length_bound v : (0 <= v)%Z -> (v < 16 ^ Z.of_nat (hex_length v))%Z.
Proof.
  intros Hv. unfold hex_length. destruct (Z.eqb_spec v 0) as [->|N]; [reflexivity|].
  pose proof (Z.log2_spec v ltac:(lia)) as [_ B]. eapply Z.lt_le_trans; [exact B|].
  change 16%Z with (2 ^ 4)%Z. rewrite <- Z.pow_mul_r by lia. apply Z.pow_le_mono_r; [lia|].
  pose proof (Z.log2_nonneg v). pose proof (Z.div_pos (Z.log2 v) 4 ltac:(lia) ltac:(lia)).
  rewrite Nat2Z.inj_add, Z2Nat.id by lia. change (Z.of_nat 1) with 1%Z. pose proof (Z.mod_pos_bound (Z.log2 v) 4 ltac:(lia)). pose proof (Z.div_mod (Z.log2 v) 4 ltac:(lia)). lia.
Qed.
Lemma hex_length_mono v w : (0 <= v <= w)%Z -> hex_length v <= hex_length w.
Proof.
  intros H. unfold hex_length. destruct (Z.eqb_spec v 0) as [->|N]; [destruct (Z.eqb_spec w 0); lia|].
  destruct (Z.eqb_spec w 0); [lia|]. apply Nat.add_le_mono_r. apply Z2Nat.inj_le; try (apply Z.div_pos; [apply Z.log2_nonneg|lia]).
  apply Z.div_le_mono; [lia|]. apply Z.log2_le_mono. lia.
Qed.

Theorem to_hex_literal p v : (0 <= v < p)%Z -> to_hex p v = literal ((hex_length (p - 1) + 1) / 2) v.
Proof.
  intros Hv. unfold to_hex, literal, py_hex.
  set (k := hex_length (p - 1)). set (s := numeral lower_digits (hex_length v) v).
  assert (Hk : hex_length v <= k) by (apply hex_length_mono; lia).
  assert (Ls : String.length s = hex_length v) by apply numeral_length.
  change (String.length ("0x" ++ s)) with (S (S (String.length s))).
  change (String.length ("0x" ++ numeral lower_digits k (p - 1))) with (S (S (String.length (numeral lower_digits k (p - 1))))).
  rewrite numeral_length, Ls. change (substring 2 (S (S (hex_length v)) - 2) ("0x" ++ s)) with (substring 0 (hex_length v - 0) s).
  rewrite Nat.sub_0_r, <- Ls, substring_full.
  assert (E : (if S (S k) mod 2 =? 1 then S (S k) + 1 else S (S k)) - 2 = 2 * ((k + 1) / 2)).
  { replace (S (S k)) with (k + 1 * 2) by lia. rewrite Nat.mod_add by lia.
    pose proof (Nat.div_mod k 2 ltac:(lia)) as D. pose proof (Nat.mod_upper_bound k 2 ltac:(lia)) as B.
    destruct (Nat.eqb_spec (k mod 2) 1) as [E1|N1].
    - replace (k + 1) with ((k / 2 + 1) * 2) by lia. rewrite Nat.div_mul by lia. lia.
    - replace (k + 1) with (1 + (k / 2) * 2) by lia. rewrite Nat.div_add by lia. change (1 / 2) with 0. lia. }
  rewrite E. unfold zfill. rewrite Ls. set (w := 2 * ((k + 1) / 2)).
  assert (Hw : hex_length v <= w).
  { unfold w. pose proof (Nat.div_mod (k + 1) 2 ltac:(lia)). pose proof (Nat.mod_upper_bound (k + 1) 2 ltac:(lia)). lia. }
  change ("0x" ++ zeros (w - hex_length v) ++ s)%string with (String "0" (String "x" (zeros (w - hex_length v) ++ s))).
  f_equal. f_equal. unfold s. rewrite <- numeral_pad.
  - f_equal. lia.
  - split; [lia|]. apply hex_length_bound. lia.
Qed.

Theorem to_hex_round_trip {F} {Fo : FOps F} p v : (0 <= v < p)%Z -> from_hex (to_hex p v) = Ok (f_of_Z v : F).
Proof.
  intros Hv. rewrite to_hex_literal by exact Hv. unfold literal. apply ProofHex.from_hex_round_trip; [left; reflexivity|].
  split; [lia|]. eapply Z.lt_le_trans; [apply hex_length_bound; lia|].
  apply Z.pow_le_mono_r; [lia|]. apply inj_le. pose proof (hex_length_mono v (p - 1) ltac:(lia)).
  pose proof (Nat.div_mod (hex_length (p - 1) + 1) 2 ltac:(lia)). pose proof (Nat.mod_upper_bound (hex_length (p - 1) + 1) 2 ltac:(lia)). lia.
Qed.

(** ** The shipped instances *)
Lemma p2_bytes I : In I p2_instances -> qi_bytes I = (hex_length (qi_p I - 1) + 1) / 2.
Proof.
  intros H. assert (G : forallb (fun I => qi_bytes I =? (hex_length (qi_p I - 1) + 1) / 2) p2_instances = true) by (vm_compute; reflexivity).
  rewrite forallb_forall in G. apply Nat.eqb_eq, G, H.
Qed.
Lemma ps_bytes I : In I ps_instances -> si_bytes I = (hex_length (si_p I - 1) + 1) / 2.
Proof.
  intros H. assert (G : forallb (fun I => si_bytes I =? (hex_length (si_p I - 1) + 1) / 2) ps_instances = true) by (vm_compute; reflexivity).
  rewrite forallb_forall in G. apply Nat.eqb_eq, G, H.
Qed.
Theorem p2_texts I : In I p2_instances ->
  map (literal (qi_bytes I)) (qi_diag I) = map (to_hex (qi_p I)) (qi_diag I) /\
  map (map (literal (qi_bytes I))) (qi_mat I) = map (map (to_hex (qi_p I))) (qi_mat I) /\
  map (map (literal (qi_bytes I))) (qi_rc I) = map (map (to_hex (qi_p I))) (qi_rc I).
Proof.
  intros HI. destruct (ProofKats.p2_shipped_consistent I HI) as [HC _].
  assert (V : forall l, canonical_vec (qi_p I) l -> map (literal (qi_bytes I)) l = map (to_hex (qi_p I)) l).
  { intros l Hl. apply map_ext_in. intros v Hv. rewrite (p2_bytes I HI). symmetry. apply to_hex_literal. apply Hl, Hv. }
  split; [apply V, (pc_diag_canonical I HC)|]. split; apply map_ext_in; intros r Hr; apply V; [apply (pc_mat_canonical I HC), Hr|apply (pc_rc_canonical I HC), Hr].
Qed.
Theorem ps_texts I : In I ps_instances ->
  map (map (literal (si_bytes I))) (si_mds I) = map (map (to_hex (si_p I))) (si_mds I) /\
  map (map (literal (si_bytes I))) (si_rc I) = map (map (to_hex (si_p I))) (si_rc I).
Proof.
  intros HI. destruct (ProofKats.ps_all I HI) as [P [Hok [Hpr H]]]. destruct (ProofInstances.ps_cert_parts P Hok I H) as [_ [_ [_ [_ [HC _]]]]].
  assert (V : forall l, canonical_vec (si_p I) l -> map (literal (si_bytes I)) l = map (to_hex (si_p I)) l).
  { intros l Hl. apply map_ext_in. intros v Hv. rewrite (ps_bytes I HI). symmetry. apply to_hex_literal. apply Hl, Hv. }
  split; apply map_ext_in; intros r Hr; apply V; [apply (sc_mds_canonical I HC), Hr|apply (sc_rc_canonical I HC), Hr].
Qed.
Theorem shipped_alpha :
  (forall I, In I p2_instances -> forall fuel, 5 <= fuel -> get_alpha fuel (qi_p I) = Ok (Z.of_nat (qi_d I))) /\
  (forall I, In I ps_instances -> forall fuel, 5 <= fuel -> get_alpha fuel (si_p I) = Ok (Z.of_nat (si_d I))).
Proof.
  assert (Mono : forall n p alpha a, get_alpha_from n p alpha = Ok a -> forall m, n <= m -> get_alpha_from m p alpha = Ok a).
  { induction n as [|n IH]; intros p alpha a H [|m] Hm; try lia; [discriminate H..|]. cbn [get_alpha_from] in *.
    destruct (_ =? 1)%Z; [exact H|]. destruct (_ <? p)%Z; [|exact H]. apply IH; [exact H|lia]. }
  assert (Mono2 : forall p a, get_alpha 5 p = Ok a -> forall m, 5 <= m -> get_alpha m p = Ok a).
  { unfold get_alpha. intros p a H m Hm. destruct (3 <? p)%Z; [|exact H]. exact (Mono 5 _ _ _ H m Hm). }
  split; intros I HI; apply Mono2.
  - assert (G : forallb (fun I => match get_alpha 5 (qi_p I) with Ok a => (a =? Z.of_nat (qi_d I))%Z | _ => false end) p2_instances = true) by (vm_compute; reflexivity).
    rewrite forallb_forall in G. specialize (G I HI). cbn beta in G. destruct (get_alpha 5 (qi_p I)); try discriminate. apply Z.eqb_eq in G. congruence.
  - assert (G : forallb (fun I => match get_alpha 5 (si_p I) with Ok a => (a =? Z.of_nat (si_d I))%Z | _ => false end) ps_instances = true) by (vm_compute; reflexivity).
    rewrite forallb_forall in G. specialize (G I HI). cbn beta in G. destruct (get_alpha 5 (si_p I)); try discriminate. apply Z.eqb_eq in G. congruence.
Qed.
