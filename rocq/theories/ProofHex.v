(** * from_hex (C43, C44) *)
From Coq Require Import Ascii String.
From Verif Require Import Base Field ModelHex SpecHex.

Lemma hex_val_digit c : option_map Z.of_N (hex_val (N_of_ascii c)) = digit_value c.
Proof. destruct c as [[] [] [] [] [] [] [] []]; vm_compute; reflexivity. Qed.
Lemma cont_not_digit c : (128 <=? N_of_ascii c)%N = true -> digit_value c = None.
Proof. destruct c as [[] [] [] [] [] [] [] []]; vm_compute; intros H; try reflexivity; discriminate. Qed.

Lemma digit_hex c v : digit_value c = Some v -> exists x, hex_val (N_of_ascii c) = Some x /\ v = Z.of_N x.
Proof. rewrite <- hex_val_digit. destruct (hex_val (N_of_ascii c)) as [x|]; cbn; [|discriminate]. intros [= <-]. eauto. Qed.
Lemma hex_val_lt c x : hex_val c = Some x -> (x < 16)%N.
Proof.
  unfold hex_val. destruct ((65 <=? c) && (c <=? 70))%N eqn:E1; [apply andb_true_iff in E1; rewrite !N.leb_le in E1; intros [= <-]; lia|].
  destruct ((97 <=? c) && (c <=? 102))%N eqn:E2; [apply andb_true_iff in E2; rewrite !N.leb_le in E2; intros [= <-]; lia|].
  destruct ((48 <=? c) && (c <=? 57))%N eqn:E3; [apply andb_true_iff in E3; rewrite !N.leb_le in E3; intros [= <-]; lia|]. discriminate.
Qed.
Lemma lor_add x y : (y < 16)%N -> N.lor (N.shiftl x 4) y = (16 * x + y)%N.
Proof.
  intros H. rewrite N.shiftl_mul_pow2. change (2 ^ 4)%N with 16%N. rewrite <- N.lxor_lor.
  - rewrite <- N.add_nocarry_lxor; [lia|]. apply N.bits_inj. intros n. rewrite N.land_spec, N.bits_0.
    destruct (N.lt_ge_cases n 4) as [L|L].
    + change 16%N with (2 ^ 4)%N. rewrite N.mul_pow2_bits_low by exact L. reflexivity.
    + assert (E : N.testbit y n = false). { destruct (N.eq_dec y 0) as [->|Ny]; [apply N.bits_0|]. apply N.bits_above_log2. apply N.log2_lt_pow2; [lia|]. eapply N.lt_le_trans; [exact H|]. change 16%N with (2 ^ 4)%N. apply N.pow_le_mono_r; lia. }
      rewrite E. apply andb_false_r.
  - apply N.bits_inj. intros n. rewrite N.land_spec, N.bits_0.
    destruct (N.lt_ge_cases n 4) as [L|L].
    + change 16%N with (2 ^ 4)%N. rewrite N.mul_pow2_bits_low by exact L. reflexivity.
    + assert (E : N.testbit y n = false). { destruct (N.eq_dec y 0) as [->|Ny]; [apply N.bits_0|]. apply N.bits_above_log2. apply N.log2_lt_pow2; [lia|]. eapply N.lt_le_trans; [exact H|]. change 16%N with (2 ^ 4)%N. apply N.pow_le_mono_r; lia. }
      rewrite E. apply andb_false_r.
Qed.

Lemma bytes_length s : length (bytes_of s) = String.length s.
Proof. unfold bytes_of. rewrite map_length. induction s as [|c s IH]; cbn; [reflexivity|]. rewrite IH. reflexivity. Qed.

Definition be (l : list N) (v : N) : N := fold_left (fun v b => 256 * v + b)%N l v.
Lemma string_pair_ind (P : string -> Prop) : P EmptyString -> (forall c, P (String c EmptyString)) -> (forall a b s, P s -> P (String a (String b s))) -> forall s, P s.
Proof.
  intros H0 H1 H2. assert (G : forall n s, String.length s <= n -> P s).
  { induction n as [|n IH]; intros s Hs; destruct s as [|a [|b s]]; cbn in Hs; try lia; auto. apply H2. apply IH. lia. }
  intros s. apply (G (String.length s)). lia.
Qed.
Lemma hex_pairs_ok s : all_digits s -> Nat.even (String.length s) = true ->
  exists l, hex_pairs (bytes_of s) = Some l /\
    forall v, Z.of_N (be l v) = (Z.of_N v * 16 ^ Z.of_nat (String.length s) + numeral_value s)%Z.
Proof.
  induction s as [|c|a b s IH] using string_pair_ind; intros Hd He.
  - exists []. split; [reflexivity|]. intros v. cbn. lia.
  - discriminate.
  - destruct Hd as [Ha [Hb Hd]]. destruct (IH Hd He) as [l [El Hl]].
    destruct (digit_value a) as [va|] eqn:Ea; [|contradiction (Ha Ea)]. destruct (digit_value b) as [vb|] eqn:Eb; [|contradiction (Hb Eb)].
    destruct (digit_hex a va Ea) as [x [Ex ->]]. destruct (digit_hex b vb Eb) as [y [Ey ->]].
    unfold bytes_of in *. cbn [list_ascii_of_string map hex_pairs]. rewrite Ex, Ey, El. eexists. split; [reflexivity|].
    intros v. cbn [be fold_left]. fold (be l). rewrite lor_add by (apply (hex_val_lt _ _ Ey)). unfold be in Hl. rewrite Hl.
    cbn [numeral_value String.length]. unfold digit_or_0. rewrite Ea, Eb. rewrite !Nat2Z.inj_succ, !Z.pow_succ_r by lia.
    rewrite !N2Z.inj_add, !N2Z.inj_mul. change (Z.of_N 256) with 256%Z. change (Z.of_N 16) with 16%Z. ring.
Qed.
Lemma hex_pairs_bad s : Nat.even (String.length s) = true -> hex_pairs (bytes_of s) <> None -> all_digits s.
Proof.
  induction s as [|c|a b s IH] using string_pair_ind; intros He H; [exact I|discriminate|].
  unfold bytes_of in *. cbn [list_ascii_of_string map hex_pairs] in H. cbn [all_digits]. unfold is_digit.
  rewrite <- !hex_val_digit. destruct (hex_val (N_of_ascii a)); [|contradiction]. destruct (hex_val (N_of_ascii b)); [|contradiction].
  split; [discriminate|]. split; [discriminate|]. apply IH; [exact He|]. destruct (hex_pairs _); [discriminate|contradiction].
Qed.

Lemma mod2_even n : (n mod 2 =? 0) = Nat.even n.
Proof.
  destruct (Nat.even n) eqn:E.
  - apply Nat.eqb_eq. apply Nat.even_spec in E. destruct E as [k ->]. rewrite Nat.mul_comm. apply Nat.mod_mul. lia.
  - apply Nat.eqb_neq. intros H. apply Nat.mod_divide in H; [|lia]. destruct H as [k ->]. rewrite Nat.even_mul in E. cbn in E. rewrite orb_true_r in E. discriminate.
Qed.

Section Hex.
  Context {F} {Fo : FOps F}.

  Theorem from_hex_value a b s : all_digits s -> Nat.even (String.length s) = true ->
    from_hex (String a (String b s)) = Ok (f_of_Z (numeral_value s) : F).
  Proof.
    intros Hd He. destruct (hex_pairs_ok s Hd He) as [l [El Hl]]. unfold from_hex, str_from.
    assert (Hb : is_char_boundary (bytes_of (String a (String b s))) 2 = true).
    { unfold is_char_boundary, bytes_of. cbn [Nat.eqb list_ascii_of_string map nth_error]. destruct s as [|c s']; [reflexivity|].
      cbn [list_ascii_of_string map]. destruct Hd as [Hc _]. apply negb_true_iff, andb_false_iff. left.
      destruct (128 <=? N_of_ascii c)%N eqn:E; [|reflexivity]. apply cont_not_digit in E. contradiction (Hc E). }
    rewrite Hb. cbn [bind]. change (skipn 2 (bytes_of (String a (String b s)))) with (bytes_of s).
    unfold vec_from_hex. rewrite bytes_length, mod2_even, He. cbn [negb]. rewrite El. cbn [unwrap bind].
    unfold from_be_bytes_mod_order. fold (be l 0%N). rewrite (Hl 0%N). reflexivity.
  Qed.

  Theorem from_hex_panics s :
    (from_hex s = (Panic : res F) <->
     String.length s < 2 \/
     exists a b r, s = String a (String b r) /\ (Nat.odd (String.length r) = true \/ ~ all_digits r)) /\
    (from_hex s = (Panic : res F) \/ exists x : F, from_hex s = Ok x).
  Proof.
    assert (Dec : forall r, {all_digits r} + {~ all_digits r}).
    { induction r as [|c r IH]; [left; exact I|]. cbn [all_digits]. unfold is_digit. destruct (digit_value c); [|right; intros [H _]; contradiction].
      destruct IH as [H|H]; [left; split; [discriminate|exact H]|right; tauto]. }
    assert (Short : String.length s < 2 -> from_hex s = (Panic : res F)).
    { intros H. destruct s as [|a [|b s]]; [reflexivity|reflexivity|cbn in H; lia]. }
    assert (Bad : forall a b r, Nat.odd (String.length r) = true \/ ~ all_digits r -> from_hex (String a (String b r)) = (Panic : res F)).
    { intros a b r H. unfold from_hex, str_from. destruct (is_char_boundary _ 2); [|reflexivity]. cbn [bind].
      change (skipn 2 (bytes_of (String a (String b r)))) with (bytes_of r). unfold vec_from_hex. rewrite bytes_length, mod2_even.
      destruct (Nat.even (String.length r)) eqn:E; [|reflexivity]. cbn [negb]. destruct H as [H|H]; [rewrite <- Nat.negb_even, E in H; discriminate|].
      destruct (hex_pairs (bytes_of r)) as [l|] eqn:El; [|reflexivity]. exfalso. apply H. apply hex_pairs_bad; [exact E|]. rewrite El. discriminate. }
    destruct s as [|a [|b r]]; [split; [split; [intros _; left; cbn; lia|intros _; apply Short; cbn; lia]|left; apply Short; cbn; lia]..|].
    destruct (Dec r) as [D|D]; [destruct (Nat.even (String.length r)) eqn:E|].
    - pose proof (from_hex_value a b r D E) as V. split; [|right; eexists; exact V]. rewrite V. split; [discriminate|].
      intros [H|(a' & b' & r' & E' & H)]; [cbn in H; lia|]. injection E' as <- <- <-. rewrite <- Nat.negb_even, E in H. destruct H as [H|H]; [discriminate|contradiction].
    - assert (P : from_hex (String a (String b r)) = (Panic : res F)) by (apply Bad; left; rewrite <- Nat.negb_even, E; reflexivity).
      split; [|left; exact P]. split; [|intros _; exact P]. intros _. right. exists a, b, r. split; [reflexivity|]. left. rewrite <- Nat.negb_even, E. reflexivity.
    - assert (P : from_hex (String a (String b r)) = (Panic : res F)) by (apply Bad; right; exact D).
      split; [|left; exact P]. split; [|intros _; exact P]. intros _. right. exists a, b, r. split; [reflexivity|]. right. exact D.
  Qed.
  Theorem from_hex_prefix a b a' b' r : from_hex (String a (String b r)) = (from_hex (String a' (String b' r)) : res F).
  Proof. reflexivity. Qed.

  Lemma get_digit alpha i : alpha = lower_digits \/ alpha = upper_digits -> i < 16 ->
    exists c, String.get i alpha = Some c /\ digit_value c = Some (Z.of_nat i).
  Proof. intros [->| ->] Hi; do 16 (destruct i as [|i]; [eexists; split; reflexivity|]); lia. Qed.
  Lemma numeral_digits alpha n z : alpha = lower_digits \/ alpha = upper_digits -> all_digits (numeral alpha n z) /\ String.length (numeral alpha n z) = n /\
    numeral_value (numeral alpha n z) = (z mod 16 ^ Z.of_nat n)%Z.
  Proof.
    intros Ha. induction n as [|n [I1 [I2 I3]]]; [cbn; rewrite Z.mod_1_r; auto|].
    set (q := ((z / 16 ^ Z.of_nat n) mod 16)%Z). assert (Hq : (0 <= q < 16)%Z) by (apply Z.mod_pos_bound; lia).
    destruct (get_digit alpha (Z.to_nat q) Ha ltac:(lia)) as [c [Ec Dc]].
    cbn [numeral]. fold q. rewrite Ec. cbn [all_digits String.length numeral_value]. unfold is_digit, digit_or_0. rewrite Dc, I2, I3.
    split; [split; [discriminate|exact I1]|]. split; [reflexivity|]. rewrite Z2Nat.id by lia. unfold q.
    rewrite Nat2Z.inj_succ, Z.pow_succ_r, (Z.mul_comm 16) by lia. rewrite Z.rem_mul_r by (try apply Z.pow_nonzero; lia). ring.
  Qed.
  Theorem from_hex_round_trip alpha n z a b : alpha = lower_digits \/ alpha = upper_digits -> (0 <= z < 16 ^ Z.of_nat (2 * n))%Z ->
    from_hex (String a (String b (numeral alpha (2 * n) z))) = Ok (f_of_Z z : F).
  Proof.
    intros Ha Hz. destruct (numeral_digits alpha (2 * n) z Ha) as [D [L V]]. rewrite from_hex_value; [|exact D|rewrite L, Nat.even_mul; reflexivity].
    rewrite V, Z.mod_small by exact Hz. reflexivity.
  Qed.
End Hex.
Theorem from_hex_collide {F} {Fo : FOps F} {p} (HP : is_prime_field Fo p) r r' a b a' b' :
  all_digits r -> all_digits r' -> Nat.even (String.length r) = true -> Nat.even (String.length r') = true ->
  (from_hex (String a (String b r)) = (from_hex (String a' (String b' r')) : res F) <-> (numeral_value r mod p = numeral_value r' mod p)%Z).
Proof.
  intros D D' E E'. rewrite !from_hex_value by assumption. rewrite <- (f_of_Z_eq_iff HP). split; [intros [= H]; exact H|intros ->; reflexivity].
Qed.
