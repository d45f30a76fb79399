(** * ModelHex: src/fields/utils.rs:9-12 from_hex

    A Rust [&str] is the list of its UTF-8 bytes.  Validity of the UTF-8 is not assumed.
    Modelled from their documentation: slicing a [str] (core), [Vec::<u8>::from_hex] (crate hex 0.4),
    [PrimeField::from_be_bytes_mod_order] (crate ark-ff: the big-endian value modulo p). *)
From Coq Require Import Ascii String.
From Verif Require Import Base Field.

Definition bytes_of (s : string) : list N := map N_of_ascii (list_ascii_of_string s).

(** core::str is_char_boundary *)
Definition is_char_boundary (s : list N) (i : nat) : bool :=
  if (i =? 0)%nat then true
  else match nth_error s i with
       | None => (i =? length s)%nat
       | Some b => negb ((128 <=? b) && (b <? 192))%N
       end.
(** [&s[i..]] *)
Definition str_from (s : list N) (i : nat) : res (list N) :=
  if is_char_boundary s i then Ok (skipn i s) else Panic.

(** hex: val *)
Definition hex_val (c : N) : option N :=
  if ((65 <=? c) && (c <=? 70))%N then Some (c - 65 + 10)%N
  else if ((97 <=? c) && (c <=? 102))%N then Some (c - 97 + 10)%N
  else if ((48 <=? c) && (c <=? 57))%N then Some (c - 48)%N
  else None.
(** hex: the chunks(2) loop of from_hex *)
Fixpoint hex_pairs (l : list N) : option (list N) :=
  match l with
  | a :: b :: l' =>
      match hex_val a, hex_val b, hex_pairs l' with
      | Some x, Some y, Some r => Some (N.lor (N.shiftl x 4) y :: r)
      | _, _, _ => None
      end
  | _ => Some []
  end.
(** hex: Vec::from_hex; the error value is not modelled *)
Definition vec_from_hex (l : list N) : option (list N) :=
  if negb (length l mod 2 =? 0)%nat then None else hex_pairs l.

Section FromHex.
  Context {F : Type} {Fo : FOps F}.
  (** ark-ff: from_be_bytes_mod_order *)
  Definition from_be_bytes_mod_order (l : list N) : F :=
    f_of_Z (Z.of_N (fold_left (fun v b => 256 * v + b)%N l 0%N)).

  (** fields/utils.rs:9-12 *)
  Definition from_hex (s : string) : res F :=
    t <- str_from (bytes_of s) 2 ;;
    a <- unwrap (vec_from_hex t) ;;
    Ok (from_be_bytes_mod_order a).
End FromHex.
