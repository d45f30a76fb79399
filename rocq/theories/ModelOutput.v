(** * ModelOutput: the text printed by poseidon2_rust_params.sage (lines 634-713)

    The text is one string.  Modelled from its documentation: Python's print (a line feed unless end is given),
    str.format and str() of an integer (decimal).  Values are the integers int(value). *)
From Coq Require Import Ascii String DecimalString.
From Verif Require Import Base ModelPrint.
Local Open Scope string_scope.

Definition newline : string := String (ascii_of_nat 10) EmptyString.
(** print(s) *)
Definition print (s : string) : string := s ++ newline.
(** str(n) *)
Definition str (n : nat) : string := NilZero.string_of_uint (Nat.to_uint n).
Definition quote : string := String (ascii_of_nat 34) EmptyString.
(** a loop that only prints *)
Definition for_print {A} (body : A -> string) (l : list A) : string := fold_right (fun a s => body a ++ s) "" l.

(** 634-640 to_hex: print("from_hex(\"{}\"),".format(value)) *)
Definition print_hex (p v : Z) : string := print ("from_hex(" ++ quote ++ to_hex p v ++ quote ++ "),").

(** 642-648 *)
Definition print_header : string :=
  print "use super::poseidon::PoseidonParams;" ++
  print "use bellman_ce::pairing::{bls12_381::Bls12, ff::ScalarEngine, from_hex};" ++
  print "type Scalar = <Bls12 as ScalarEngine>::Fr;" ++
  print "use lazy_static::lazy_static;" ++
  print "use std::sync::Arc;" ++
  print "" ++
  print "lazy_static! {".

(** 662-666 *)
Definition print_diag (p : Z) (t : nat) (diag : list Z) : string :=
  print ("pub static ref MAT_DIAG" ++ str t ++ "_M_1: Vec<Scalar> = vec![") ++
  for_print (print_hex p) diag ++
  print "];" ++ print "".

(** 669-676 *)
Definition print_internal (p : Z) (t : nat) (mat : list (list Z)) : string :=
  print ("pub static ref MAT_INTERNAL" ++ str t ++ ": Vec<Vec<Scalar>> = vec![") ++
  for_print (fun row => "vec![" ++ for_print (print_hex p) row ++ print "],") mat ++
  print "];" ++ print "".

(** 680-685, 700-705 and 707-712: for (i,val) in enumerate(l), from index i on *)
Fixpoint print_enumerate (p : Z) (t i : nat) (l : list Z) : string :=
  match l with
  | [] => ""
  | v :: l => (if (i mod t =? 0)%nat then "vec![" else "") ++ print_hex p v ++
              (if (i mod t =? t - 1)%nat then print "]," else "") ++ print_enumerate p t (S i) l
  end.
(** 679-687 *)
Definition print_rc (p : Z) (t : nat) (rc : list Z) : string :=
  print ("pub static ref RC" ++ str t ++ ": Vec<Vec<Scalar>> = vec![") ++
  print_enumerate p t 0 rc ++
  print "];" ++ print "".

(** 689-693 *)
Definition print_params (t alpha rf rp : nat) : string :=
  print ("pub static ref POSEIDON_" ++ str t ++ "_PARAMS: Arc<PoseidonParams<Scalar>> = Arc::new(PoseidonParams::new(" ++
         str t ++ ", " ++ str alpha ++ ", " ++ str rf ++ ", " ++ str rp ++ ", &MAT_DIAG" ++ str t ++ "_M_1, &RC" ++ str t ++ "));") ++
  print "}" ++ print "" ++ print "".

(** 700-713 *)
Definition print_vector (p : Z) (t : nat) (l : list Z) : string := print_enumerate p t 0 l ++ print "];".

(** 642-713; state_in and state_out are the words of lines 696 and 698 *)
Definition script_output (p : Z) (t alpha rf rp : nat) (diag : list Z) (mat : list (list Z)) (rc state_in state_out : list Z) : string :=
  print_header ++ print_diag p t diag ++ print_internal p t mat ++ print_rc p t rc ++ print_params t alpha rf rp ++
  print_vector p t state_in ++ print_vector p t state_out.
