(** * SpecHex: hexadecimal notation *)
From Coq Require Import Ascii String.
From Verif Require Import Base.

(** value of a hexadecimal digit character, either case *)
Definition digit_value (c : ascii) : option Z :=
  match index 0 (String c EmptyString) "0123456789abcdef" with
  | Some i => Some (Z.of_nat i)
  | None => match index 0 (String c EmptyString) "0123456789ABCDEF" with
            | Some i => Some (Z.of_nat i)
            | None => None
            end
  end.
Definition is_digit (c : ascii) : Prop := digit_value c <> None.
Definition digit_or_0 (c : ascii) : Z := match digit_value c with Some v => v | None => 0%Z end.

(** all characters are digits *)
Fixpoint all_digits (s : string) : Prop :=
  match s with EmptyString => True | String c s' => is_digit c /\ all_digits s' end.
(** value of a digit string, most significant digit first *)
Fixpoint numeral_value (s : string) : Z :=
  match s with
  | EmptyString => 0
  | String c s' => digit_or_0 c * 16 ^ Z.of_nat (String.length s') + numeral_value s'
  end%Z.

(** z written with n digits of the given alphabet *)
Fixpoint numeral (alphabet : string) (n : nat) (z : Z) : string :=
  match n with
  | O => EmptyString
  | S n' => String (match String.get (Z.to_nat ((z / 16 ^ Z.of_nat n') mod 16)) alphabet with Some c => c | None => "?"%char end)
                   (numeral alphabet n' z)
  end.
Definition lower_digits : string := "0123456789abcdef".
Definition upper_digits : string := "0123456789ABCDEF".
