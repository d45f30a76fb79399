(** * ModelPrint: get_alpha and the text output of poseidon2_rust_params.sage

    Modelled from their documentation: Python's hex() and str.zfill().  The characters of a string are ASCII. *)
From Coq Require Import Ascii String.
From Verif Require Import Base SpecHex.

(** poseidon2_rust_params.sage:24-28 get_alpha; [fuel] bounds the number of candidates *)
Fixpoint get_alpha_from (fuel : nat) (p alpha : Z) : res Z :=
  match fuel with
  | O => Fuel
  | S fuel => if (Z.gcd alpha (p - 1) =? 1)%Z then Ok alpha          (* break *)
              else if (alpha + 1 <? p)%Z then get_alpha_from fuel p (alpha + 1)
              else Ok alpha                                          (* range(3, p) is exhausted *)
  end.
(** Python raises UnboundLocalError when range(3, p) is empty *)
Definition get_alpha (fuel : nat) (p : Z) : res Z := if (3 <? p)%Z then get_alpha_from fuel p 3 else Panic.

(** Python: hex(v) for v >= 0, lower case, no leading zeros *)
Definition hex_length (v : Z) : nat := if (v =? 0)%Z then 1 else Z.to_nat (Z.log2 v / 4) + 1.
Definition py_hex (v : Z) : string := ("0x" ++ numeral lower_digits (hex_length v) v)%string.
(** Python: s.zfill(w), for a string without a sign *)
Fixpoint zeros (n : nat) : string := match n with O => EmptyString | S n => String "0" (zeros n) end.
Definition zfill (w : nat) (s : string) : string := (zeros (w - String.length s) ++ s)%string.

(** poseidon2_rust_params.sage:634-640 to_hex; the text between the quotation marks of from_hex("...") *)
Definition to_hex (p value : Z) : string :=
  let l := String.length (py_hex (p - 1)) in
  let l := if (l mod 2 =? 1)%nat then l + 1 else l in
  let digits := substring 2 (String.length (py_hex value) - 2) (py_hex value) in   (* hex(int(value))[2:] *)
  ("0x" ++ zfill (l - 2) digits)%string.
