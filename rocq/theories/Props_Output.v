(** * The printed parameters can be read back: C84 *)
From Coq Require Import Ascii String.
From Verif Require Import Base Field Spec ModelPoseidon2 ModelInstances ModelKats SpecInstances ModelGenerate ModelPrint ModelOutput SpecRust F13.
From Verif Require ProofOutput ProofOutput2.
Local Open Scope nat_scope.

(** The three tables, read from the printed text as Rust, are the tables of the script. *)
Theorem C84_tables :
  forall p t alpha rf rp diag mat rows a b, printable p t diag mat rows a b ->
  let text := script_output p t alpha rf rp diag mat (concat rows) a b in
  forall F (Fo : FOps F),
    rust_vec ("MAT_DIAG" ++ str t ++ "_M_1") text = Some (Ok (map (f_of_Z (F := F)) diag)) /\
    rust_mat ("MAT_INTERNAL" ++ str t) text = Some (Ok (map (map (f_of_Z (F := F))) mat)) /\
    rust_mat ("RC" ++ str t) text = Some (Ok (map (map (f_of_Z (F := F))) rows)).
Proof. exact ProofOutput.read_tables. Qed.
Print Assumptions C84_tables.

(** The two vectors after the declarations are the input and the output. *)
Theorem C84_test_vector :
  forall p t alpha rf rp diag mat rows a b, printable p t diag mat rows a b ->
  let text := script_output p t alpha rf rp diag mat (concat rows) a b in
  forall F (Fo : FOps F), exists ra rb, test_rows text = Some (ra, rb) /\
    eval_vec ra = Ok (map (f_of_Z (F := F)) a) /\ eval_vec rb = Ok (map (f_of_Z (F := F)) b).
Proof. exact ProofOutput.read_test. Qed.
Print Assumptions C84_test_vector.

(** Different parameters, tables or vectors give different texts. *)
Theorem C84_injective :
  forall p t alpha rf rp diag mat rows a b p' t' alpha' rf' rp' diag' mat' rows' a' b',
  printable p t diag mat rows a b -> printable p' t' diag' mat' rows' a' b' ->
  script_output p t alpha rf rp diag mat (concat rows) a b = script_output p' t' alpha' rf' rp' diag' mat' (concat rows') a' b' ->
  t = t' /\ alpha = alpha' /\ rf = rf' /\ rp = rp' /\ diag = diag' /\ mat = mat' /\ rows = rows' /\ a = a' /\ b = b'.
Proof. exact ProofOutput.output_injective. Qed.
Print Assumptions C84_injective.

(** The text printed for a shipped instance: its tables give the shipped parameters, its vectors are 0..t-1 and the
    output of the Rust permutation. *)
Theorem C84_shipped :
  forall I, In I p2_instances -> forall F (Fo : FOps F), is_prime_field Fo (qi_p I) -> forall dbg,
  exists Q MF y, p2_instance_params dbg I = Ok Q /\ generate_matrix_full (F := F) (qi_t I) = Ok MF /\
  let x := map (fun i => f_of_Z (Z.of_nat i)) (seq 0 (qi_t I)) in
  script_poseidon2 (qi_t I) (qi_d I) (qi_rf I) (qi_rp I) MF (map (map f_of_Z) (qi_mat I)) (map f_of_Z (concat (qi_rc I))) x = Ok y /\
  let text := script_output (qi_p I) (qi_t I) (qi_d I) (qi_rf I) (qi_rp I) (qi_diag I) (qi_mat I) (concat (qi_rc I)) (map f_to_Z x) (map f_to_Z y) in
  (exists diag mat rc,
     rust_vec ("MAT_DIAG" ++ str (qi_t I) ++ "_M_1") text = Some (Ok diag) /\
     rust_mat ("MAT_INTERNAL" ++ str (qi_t I)) text = Some (Ok mat) /\
     rust_mat ("RC" ++ str (qi_t I)) text = Some (Ok rc) /\
     p2_new dbg (qi_t I) (qi_d I) (qi_rf I) (qi_rp I) diag mat rc = Ok Q) /\
  (exists ra rb, test_rows text = Some (ra, rb) /\ eval_vec ra = Ok x /\ exists out, eval_vec rb = Ok out /\ p2_permutation dbg Q x = Ok out).
Proof. exact ProofOutput2.shipped_output. Qed.
Print Assumptions C84_shipped.

(** The printed call of the constructor has six arguments; Poseidon2Params::new (src/poseidon2/poseidon2_params.rs:24-32)
    has seven parameters, and the internal matrix is the one left out. *)
Theorem C84_call :
  forall p t alpha rf rp diag mat rows a b, printable p t diag mat rows a b ->
  call_arguments "PoseidonParams" ("POSEIDON_" ++ str t ++ "_PARAMS") (script_output p t alpha rf rp diag mat (concat rows) a b) =
    Some [[TId (str t)]; [TId (str alpha)]; [TId (str rf)]; [TId (str rp)]; [sym "&"; TId ("MAT_DIAG" ++ str t ++ "_M_1")]; [sym "&"; TId ("RC" ++ str t)]].
Proof. exact ProofOutput.read_call. Qed.
Print Assumptions C84_call.
Theorem C84_call_refuted :
  ~ (exists p t alpha rf rp diag mat rows a b args, printable p t diag mat rows a b /\
     call_arguments "PoseidonParams" ("POSEIDON_" ++ str t ++ "_PARAMS") (script_output p t alpha rf rp diag mat (concat rows) a b) = Some args /\
     List.length args = 7).
Proof. exact ProofOutput2.never_seven. Qed.
Print Assumptions C84_call_refuted.

(** The text is not a Rust file either: two square brackets are closed without being opened. *)
Theorem C84_brackets_refuted :
  forall p t alpha rf rp diag mat rows a b, printable p t diag mat rows a b ->
  exists opening closing, brackets (script_output p t alpha rf rp diag mat (concat rows) a b) = Some (opening, closing) /\ closing = opening + 2.
Proof. exact ProofOutput2.unbalanced. Qed.
Print Assumptions C84_brackets_refuted.

(** Parentheses and braces are balanced. *)
Theorem C84_balanced :
  forall p t alpha rf rp diag mat rows a b, printable p t diag mat rows a b ->
  let text := script_output p t alpha rf rp diag mat (concat rows) a b in
  exists n m, occurrences "(" text = Some n /\ occurrences ")" text = Some n /\ occurrences "{" text = Some m /\ occurrences "}" text = Some m.
Proof. exact ProofOutput.read_round. Qed.
Print Assumptions C84_balanced.

(** ** A case: p = 13, two words, two rows of constants *)
Definition ex_text : string := script_output 13 2 5 8 2 [1; 2]%Z [[2; 1]; [1; 3]]%Z (concat [[7; 12]; [4; 0]]%Z) [0; 1]%Z [11; 5]%Z.
Example C84_printable_case : printable 13 2 [1; 2]%Z [[2; 1]; [1; 3]]%Z [[7; 12]; [4; 0]]%Z [0; 1]%Z [11; 5]%Z.
Proof.
  split; [lia|..]; unfold canonical; cbn [In]; intros;
    repeat match goal with H : _ \/ _ |- _ => destruct H | H : False |- _ => destruct H end; subst; cbn [In List.length] in *;
    repeat split; intros; repeat match goal with H : _ \/ _ |- _ => destruct H | H : False |- _ => destruct H end; subst; lia.
Qed.
Example C84_text_case : print_rc 13 2 (concat [[7; 12]; [4; 0]]%Z) =
"pub static ref RC2: Vec<Vec<Scalar>> = vec![
vec![from_hex(""0x07""),
from_hex(""0x0c""),
],
vec![from_hex(""0x04""),
from_hex(""0x00""),
],
];

"%string /\ rust_mat (Fo := F13_ops) "RC2" ex_text = Some (mapM (mapM (fun z => Ok (f_of_Z (FOps := F13_ops) z))) [[7; 12]; [4; 0]]%Z).
Proof. split; reflexivity. Qed.
Example C84_unprinted_case : rust_vec (Fo := F13_ops) "RC3" ex_text = None.
Proof. vm_compute. reflexivity. Qed.
Example C84_brackets_case : brackets ex_text = Some (9, 11).
Proof. vm_compute. reflexivity. Qed.
