(** * Properties of from_hex: C43, C44 *)
From Coq Require Import Ascii String.
From Verif Require Import Base Field ModelHex SpecHex F13.
From Verif Require ProofHex.

(** ** C43 *)
Theorem C43_from_hex_value :
  forall F (Fo : FOps F) a b s, all_digits s -> Nat.even (String.length s) = true ->
    from_hex (String a (String b s)) = Ok (f_of_Z (numeral_value s) : F).
Proof. exact @ProofHex.from_hex_value. Qed.
Print Assumptions C43_from_hex_value.

Theorem C43_from_hex_round_trip :
  forall F (Fo : FOps F) alphabet n z a b, alphabet = lower_digits \/ alphabet = upper_digits ->
    (0 <= z < 16 ^ Z.of_nat (2 * n))%Z ->
    from_hex (String a (String b (numeral alphabet (2 * n) z))) = Ok (f_of_Z z : F).
Proof. exact @ProofHex.from_hex_round_trip. Qed.
Print Assumptions C43_from_hex_round_trip.

Theorem C43_from_hex_collisions :
  forall F (Fo : FOps F) p, is_prime_field Fo p -> forall r r' a b a' b',
    all_digits r -> all_digits r' -> Nat.even (String.length r) = true -> Nat.even (String.length r') = true ->
    (from_hex (String a (String b r)) = (from_hex (String a' (String b' r')) : res F) <-> (numeral_value r mod p = numeral_value r' mod p)%Z).
Proof. exact @ProofHex.from_hex_collide. Qed.
Print Assumptions C43_from_hex_collisions.

Definition hex13 (s : string) : res Z := x <- @from_hex F13 _ s ;; Ok (@f_to_Z _ F13_ops x).
(** 0x1aF3 = 6899 = 530 * 13 + 9 *)
Example C43_ex : hex13 "0x1aF3" = Ok 9%Z /\ numeral_value "1aF3" = 6899%Z /\ hex13 "0x00001aF3" = Ok 9%Z /\ hex13 "0x" = Ok 0%Z /\ hex13 "0x0d0e" = hex13 "0x01".
Proof. vm_compute. repeat split. Qed.
Example C43_ex_numeral : numeral lower_digits 4 6899 = "1af3"%string /\ numeral upper_digits 6 6899 = "001AF3"%string.
Proof. vm_compute. split; reflexivity. Qed.

(** ** C44 *)
Theorem C44_from_hex_panics_iff :
  forall F (Fo : FOps F) s,
    (from_hex s = (Panic : res F) <->
     String.length s < 2 \/
     exists a b r, s = String a (String b r) /\ (Nat.odd (String.length r) = true \/ ~ all_digits r)) /\
    (from_hex s = (Panic : res F) \/ exists x : F, from_hex s = Ok x).
Proof. exact @ProofHex.from_hex_panics. Qed.
Print Assumptions C44_from_hex_panics_iff.

Theorem C44_prefix_not_checked :
  forall F (Fo : FOps F) a b a' b' r, from_hex (String a (String b r)) = (from_hex (String a' (String b' r)) : res F).
Proof. exact @ProofHex.from_hex_prefix. Qed.
Print Assumptions C44_prefix_not_checked.

(** odd length, bad character, too short, a two-byte character cut in half *)
Example C44_ex : hex13 "0x123" = Panic /\ hex13 "0x12g4" = Panic /\ hex13 "0" = Panic /\
  hex13 (String "a" (String (ascii_of_nat 195) (String (ascii_of_nat 169) "12"))) = Panic /\ hex13 "zz05" = Ok 5%Z.
Proof. vm_compute. repeat split. Qed.
(** a missing prefix silently drops the two leading digits *)
Example C44_ex_prefix : hex13 "1234" = hex13 "0x34".
Proof. vm_compute. reflexivity. Qed.
