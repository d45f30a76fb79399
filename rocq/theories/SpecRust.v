(** * SpecRust: a reader for the part of Rust's syntax that matters for tables of constants

    Tokens are identifiers (with numbers), string literals without escapes, and single characters; white space separates.
    The reader knows nothing of the program that printed the text. *)
From Coq Require Import Ascii String.
From Verif Require Import Base Field ModelHex.
Local Open Scope nat_scope.

Inductive token := TId (s : string) | TStr (s : string) | TSym (c : ascii).
Definition token_eqb (a b : token) : bool :=
  match a, b with
  | TId s, TId s' => String.eqb s s'
  | TStr s, TStr s' => String.eqb s s'
  | TSym c, TSym c' => Ascii.eqb c c'
  | _, _ => false
  end.

Definition between (a b : nat) (c : ascii) : bool := (a <=? nat_of_ascii c) && (nat_of_ascii c <=? b).
Definition id_char (c : ascii) : bool := between 48 57 c || between 65 90 c || between 97 122 c || (nat_of_ascii c =? 95).
Definition space_char (c : ascii) : bool := (nat_of_ascii c =? 32) || between 9 13 c.
Definition quote_char (c : ascii) : bool := nat_of_ascii c =? 34.

(** the tokens read so far, last first, and what is being read *)
Inductive mode := MNone | MId (s : string) | MStr (s : string).
Definition snoc (s : string) (c : ascii) : string := (s ++ String c EmptyString)%string.
Definition lex_start (acc : list token) (c : ascii) : list token * mode :=
  if id_char c then (acc, MId (String c EmptyString))
  else if quote_char c then (acc, MStr EmptyString)
  else if space_char c then (acc, MNone)
  else (TSym c :: acc, MNone).
Definition lex_step (st : list token * mode) (c : ascii) : list token * mode :=
  let '(acc, m) := st in
  match m with
  | MNone => lex_start acc c
  | MId s => if id_char c then (acc, MId (snoc s c)) else lex_start (TId s :: acc) c
  | MStr s => if quote_char c then (TStr s :: acc, MNone) else (acc, MStr (snoc s c))
  end.
Fixpoint lex_run (s : string) (st : list token * mode) : list token * mode :=
  match s with EmptyString => st | String c s => lex_run s (lex_step st c) end.
Definition lex (s : string) : option (list token) :=
  match lex_run s ([], MNone) with
  | (acc, MNone) => Some (rev acc)
  | (acc, MId s) => Some (rev (TId s :: acc))
  | (_, MStr _) => None
  end.

(** [eat pre l] removes the prefix [pre] *)
Fixpoint eat (pre l : list token) : option (list token) :=
  match pre, l with
  | [], _ => Some l
  | a :: pre, b :: l => if token_eqb a b then eat pre l else None
  | _, [] => None
  end.
Fixpoint skip_past (a : token) (l : list token) : list token :=
  match l with [] => [] | b :: l => if token_eqb a b then l else skip_past a l end.

Definition sym (s : string) : token := match s with String c _ => TSym c | EmptyString => TSym zero end.

(** nested vec![...] of from_hex("...") *)
Inductive rval := RLit (s : string) | RVec (l : list rval).
Fixpoint parse_val (fuel : nat) (l : list token) : option (rval * list token) :=
  match fuel with
  | O => None
  | S fuel =>
      match eat [TId "from_hex"; sym "("] l with
      | Some (TStr s :: r) => option_map (pair (RLit s)) (eat [sym ")"] r)
      | _ => match eat [TId "vec"; sym "!"; sym "["] l with
             | Some r => option_map (fun x => (RVec (fst x), snd x)) (parse_items fuel r)
             | None => None
             end
      end
  end
with parse_items (fuel : nat) (l : list token) : option (list rval * list token) :=
  match fuel with
  | O => None
  | S fuel =>
      match eat [sym "]"] l with
      | Some r => Some ([], r)
      | None => match parse_val fuel l with
                | Some (v, r) => match eat [sym ","] r with
                                 | Some r => option_map (fun x => (v :: fst x, snd x)) (parse_items fuel r)
                                 | None => option_map (pair [v]) (eat [sym "]"] r)
                                 end
                | None => None
                end
      end
  end.

(** the tokens after the equals sign of [static ref name: type = ...] *)
Fixpoint find_static (name : string) (l : list token) : option (list token) :=
  match eat [TId "static"; TId "ref"; TId name; sym ":"] l with
  | Some r => Some (skip_past (sym "=") r)
  | None => match l with [] => None | _ :: l => find_static name l end
  end.
Definition static_tokens (name text : string) : option (list token) :=
  match lex text with Some l => find_static name l | None => None end.
(** its value, if it is a nested vec! followed by a semicolon *)
Definition static_value (name text : string) : option rval :=
  match static_tokens name text with
  | Some l => match parse_val (S (List.length l)) l with
              | Some (v, r) => option_map (fun _ => v) (eat [sym ";"] r)
              | None => None
              end
  | None => None
  end.

(** evaluation *)
Section Eval.
  Context {F : Type} {Fo : FOps F}.
  Definition eval_lit (v : rval) : res F := match v with RLit s => from_hex s | RVec _ => Panic end.
  Definition eval_vec (v : rval) : res (list F) := match v with RVec l => mapM eval_lit l | RLit _ => Panic end.
  Definition eval_mat (v : rval) : res (list (list F)) := match v with RVec l => mapM eval_vec l | RLit _ => Panic end.
  Definition rust_vec (name text : string) : option (res (list F)) := option_map eval_vec (static_value name text).
  Definition rust_mat (name text : string) : option (res (list (list F))) := option_map eval_mat (static_value name text).
End Eval.

(** the arguments of the call [Arc::new(f::new(...))]: the tokens up to the closing parenthesis, cut at the commas *)
Fixpoint cut_args (cur l : list token) : option (list (list token)) :=
  match l with
  | [] => None
  | a :: l => if token_eqb a (sym ")") then Some [rev cur]
              else if token_eqb a (sym ",") then option_map (cons (rev cur)) (cut_args [] l)
              else cut_args (a :: cur) l
  end.
Definition call_arguments (f name text : string) : option (list (list token)) :=
  match static_tokens name text with
  | Some l => match eat [TId "Arc"; sym ":"; sym ":"; TId "new"; sym "("; TId f; sym ":"; sym ":"; TId "new"; sym "("] l with
              | Some r => cut_args [] r
              | None => None
              end
  | None => None
  end.

(** opening and closing square brackets *)
Definition brackets (text : string) : option (nat * nat) :=
  option_map (fun l => (List.length (filter (token_eqb (sym "[")) l), List.length (filter (token_eqb (sym "]")) l))) (lex text).

(** how often a symbol occurs *)
Definition occurrences (c : ascii) (text : string) : option nat :=
  option_map (fun l => List.length (filter (token_eqb (TSym c)) l)) (lex text).

(** the two rows after the closing brace of lazy_static! *)
Definition test_rows (text : string) : option (rval * rval) :=
  match lex text with
  | None => None
  | Some l =>
      let l := skip_past (sym "}") (skip_past (sym "}") l) in
      match parse_val (S (List.length l)) l with
      | Some (a, r) =>
          match eat [sym ","; sym "]"; sym ";"] r with
          | Some r => match parse_val (S (List.length r)) r with
                      | Some (b, r) => match eat [sym ","; sym "]"; sym ";"] r with Some [] => Some (a, b) | _ => None end
                      | None => None
                      end
          | None => None
          end
      | None => None
      end
  end.

(** what the script has when it prints: values below p, rows of t constants, two vectors of t words *)
Definition canonical (p : Z) (l : list Z) : Prop := forall v, In v l -> (0 <= v < p)%Z.
Record printable (p : Z) (t : nat) (diag : list Z) (mat rows : list (list Z)) (a b : list Z) : Prop := {
  pr_t : 1 <= t;
  pr_diag : canonical p diag;
  pr_mat : forall row, In row mat -> canonical p row;
  pr_rows : forall row, In row rows -> List.length row = t /\ canonical p row;
  pr_a : List.length a = t /\ canonical p a;
  pr_b : List.length b = t /\ canonical p b }.
