(** * ProofOutput: what poseidon2_rust_params.sage prints can be read back (C84) *)
From Coq Require Import Ascii String DecimalString DecimalNat.
From Verif Require Import Base Field ModelHex SpecHex ModelPrint ModelOutput SpecRust LoopLemmas ProofHex ProofPrint.
Local Open Scope nat_scope.

(** ** strings *)
Lemma append_assoc a b c : ((a ++ b) ++ c = a ++ (b ++ c))%string.
Proof. induction a as [|x a IH]; [reflexivity|]. cbn. now rewrite IH. Qed.
Lemma append_nil a : (a ++ "" = a)%string.
Proof. induction a as [|x a IH]; [reflexivity|]. cbn. now rewrite IH. Qed.
Fixpoint all_char (q : ascii -> bool) (s : string) : bool := match s with EmptyString => true | String c s => q c && all_char q s end.
Lemma all_char_app q a b : all_char q (a ++ b)%string = all_char q a && all_char q b.
Proof. induction a as [|c a IH]; [reflexivity|]. cbn. rewrite IH. apply andb_assoc. Qed.
Lemma all_char_impl (q r : ascii -> bool) s : (forall c, q c = true -> r c = true) -> all_char q s = true -> all_char r s = true.
Proof. intros H. induction s as [|c s IH]; [reflexivity|]. cbn. intros E. apply andb_prop in E as [A B]. rewrite H, IH by assumption. reflexivity. Qed.

(** ** tokens of a text that starts and ends between two tokens *)
Lemma lex_run_app a b st : lex_run (a ++ b)%string st = lex_run b (lex_run a st).
Proof. revert st. induction a as [|c a IH]; intros st; [reflexivity|]. cbn. apply IH. Qed.
Definition lexes (s : string) (l : list token) : Prop := forall acc, lex_run s (acc, MNone) = (rev l ++ acc, MNone).
Lemma lexes_app a b la lb : lexes a la -> lexes b lb -> lexes (a ++ b)%string (la ++ lb).
Proof. intros Ha Hb acc. rewrite lex_run_app, Ha, Hb, rev_app_distr, app_assoc. reflexivity. Qed.
Lemma lexes_lex s l : lexes s l -> lex s = Some l.
Proof. intros H. unfold lex. rewrite H, app_nil_r, rev_involutive. reflexivity. Qed.
Lemma lexes_for {A} (body : A -> string) (toks : A -> list token) l : (forall a, In a l -> lexes (body a) (toks a)) -> lexes (for_print body l) (flat_map toks l).
Proof.
  intros H. induction l as [|a l IH]; [intros acc; reflexivity|]. cbn [for_print fold_right flat_map].
  apply lexes_app; [apply H; now left|]. apply IH. intros; apply H; now right.
Qed.
Lemma run_id d acc u : all_char id_char d = true -> lex_run d (acc, MId u) = (acc, MId (u ++ d)%string).
Proof.
  revert u. induction d as [|c d IH]; intros u H; cbn in *; [rewrite append_nil; reflexivity|]. apply andb_prop in H as [A B].
  rewrite A, IH by exact B. unfold snoc. rewrite append_assoc. reflexivity.
Qed.
Lemma run_str d acc u : all_char (fun c => negb (quote_char c)) d = true -> lex_run d (acc, MStr u) = (acc, MStr (u ++ d)%string).
Proof.
  revert u. induction d as [|c d IH]; intros u H; cbn in *; [rewrite append_nil; reflexivity|]. apply andb_prop in H as [A B].
  apply negb_true_iff in A. rewrite A, IH by exact B. unfold snoc. rewrite append_assoc. reflexivity.
Qed.

(** decimal numbers *)
Lemma uint_digits n : all_char (between 48 57) (NilEmpty.string_of_uint n) = true.
Proof. induction n; cbn; auto. Qed.
Lemma str_digits n : all_char (between 48 57) (str n) = true.
Proof. unfold str. generalize (Nat.to_uint n). intros u. destruct u; try apply (uint_digits (_ _)); try reflexivity; cbn; apply uint_digits. Qed.
Lemma str_id n : all_char id_char (str n) = true.
Proof. apply (all_char_impl (between 48 57)); [|apply str_digits]. intros c H. unfold id_char. rewrite H. reflexivity. Qed.
Lemma str_run n acc : lex_run (str n) (acc, MNone) = (acc, MId (str n)).
Proof.
  pose proof (str_id n) as H. assert (N : str n <> EmptyString).
  { unfold str. destruct (Nat.to_uint n); discriminate. }
  destruct (str n) as [|c s]; [contradiction|]. cbn in H. apply andb_prop in H as [A B]. cbn [lex_run lex_step]. unfold lex_start. rewrite A.
  rewrite run_id by exact B. reflexivity.
Qed.

(** hexadecimal literals *)
Lemma digit_not_quote c : digit_value c <> None -> negb (quote_char c) = true.
Proof. intros H. destruct c as [[] [] [] [] [] [] [] []]; try reflexivity; exfalso; apply H; reflexivity. Qed.
Lemma digits_no_quote s : all_digits s -> all_char (fun c => negb (quote_char c)) s = true.
Proof. induction s as [|c s IH]; [reflexivity|]. intros H. cbn. rewrite digit_not_quote, IH; [reflexivity|..]; apply H. Qed.
Lemma to_hex_no_quote p v : (0 <= v < p)%Z -> all_char (fun c => negb (quote_char c)) (to_hex p v) = true.
Proof.
  intros H. rewrite to_hex_literal by exact H. unfold ModelInstances.literal. change (all_char (fun c => negb (quote_char c)) ("0x" ++ numeral lower_digits (2 * ((hex_length (p - 1) + 1) / 2)) v)%string = true).
  rewrite all_char_app. apply digits_no_quote. apply numeral_digits. now left.
Qed.

(** ** the tokens of each part *)
Definition lit_toks (s : string) : list token := [TId "from_hex"; sym "("; TStr s; sym ")"; sym ","].
Definition vec_open : list token := [TId "vec"; sym "!"; sym "["].
Definition row_toks (l : list string) : list token := vec_open ++ flat_map lit_toks l ++ [sym "]"; sym ","].
Definition mat_toks (l : list (list string)) : list token := flat_map row_toks l.

Lemma lexes_hex p v : (0 <= v < p)%Z -> lexes (print_hex p v) (lit_toks (to_hex p v)).
Proof.
  intros H acc. unfold print_hex, print. rewrite !lex_run_app.
  change (lex_run quote (lex_run "from_hex(" (acc, MNone))) with (sym "(" :: TId "from_hex" :: acc, MStr "").
  rewrite run_str by (apply to_hex_no_quote; exact H). reflexivity.
Qed.
Lemma flat_map_map {A B C} (f : A -> B) (g : B -> list C) l : flat_map g (map f l) = flat_map (fun a => g (f a)) l.
Proof. induction l as [|a l IH]; [reflexivity|]. cbn. now rewrite IH. Qed.
Lemma lexes_hexes p l : canonical p l -> lexes (for_print (print_hex p) l) (flat_map lit_toks (map (to_hex p) l)).
Proof. intros H. rewrite flat_map_map. apply lexes_for. intros v Hv. apply lexes_hex, H, Hv. Qed.
Lemma lexes_const s l : lex_run s ([], MNone) = (rev l, MNone) -> (forall acc, lex_run s (acc, MNone) = (fst (lex_run s ([], MNone)) ++ acc, MNone)) -> lexes s l.
Proof. intros H1 H2 acc. rewrite H2, H1. reflexivity. Qed.

Definition header_toks : list token := match lex print_header with Some l => l | None => [] end.
Lemma lexes_header : lexes print_header header_toks.
Proof. intros acc. vm_compute. reflexivity. Qed.

Definition static_toks (name : string) (ty : list token) : list token :=
  [TId "pub"; TId "static"; TId "ref"; TId name; sym ":"] ++ ty ++ [sym "="].
Definition ty_vec : list token := [TId "Vec"; sym "<"; TId "Scalar"; sym ">"].
Definition ty_mat : list token := [TId "Vec"; sym "<"; TId "Vec"; sym "<"; TId "Scalar"; sym ">"; sym ">"].
Definition ty_arc : list token := [TId "Arc"; sym "<"; TId "PoseidonParams"; sym "<"; TId "Scalar"; sym ">"; sym ">"].
Definition name_diag t := ("MAT_DIAG" ++ str t ++ "_M_1")%string.
Definition name_internal t := ("MAT_INTERNAL" ++ str t)%string.
Definition name_rc t := ("RC" ++ str t)%string.
Definition name_params t := ("POSEIDON_" ++ str t ++ "_PARAMS")%string.

Lemma lexes_end : lexes (print "];" ++ print "")%string [sym "]"; sym ";"].
Proof. intros acc. reflexivity. Qed.

Lemma lexes_diag p t diag : canonical p diag ->
  lexes (print_diag p t diag) (static_toks (name_diag t) ty_vec ++ vec_open ++ flat_map lit_toks (map (to_hex p) diag) ++ [sym "]"; sym ";"]).
Proof.
  intros H. unfold print_diag. rewrite app_assoc. apply lexes_app; [|apply lexes_app; [apply lexes_hexes; exact H|apply lexes_end]].
  intros acc. unfold print. rewrite !append_assoc, !lex_run_app.
  change (lex_run "pub static ref MAT_DIAG" (acc, MNone)) with (TId "ref" :: TId "static" :: TId "pub" :: acc, MId "MAT_DIAG").
  rewrite run_id by apply str_id.
  change "_M_1: Vec<Scalar> = vec!["%string with ("_M_1" ++ ": Vec<Scalar> = vec![")%string. rewrite lex_run_app, run_id by reflexivity.
  rewrite append_assoc. reflexivity.
Qed.
Lemma lexes_row p l : canonical p l -> lexes ("vec![" ++ for_print (print_hex p) l ++ print "],")%string (row_toks (map (to_hex p) l)).
Proof.
  intros H. apply lexes_app; [intros acc; reflexivity|]. apply lexes_app; [apply lexes_hexes; exact H|]. intros acc. reflexivity.
Qed.
Lemma lexes_internal p t mat : (forall row, In row mat -> canonical p row) ->
  lexes (print_internal p t mat) (static_toks (name_internal t) ty_mat ++ vec_open ++ mat_toks (map (map (to_hex p)) mat) ++ [sym "]"; sym ";"]).
Proof.
  intros H. unfold print_internal. rewrite app_assoc. apply lexes_app; [|apply lexes_app; [|apply lexes_end]].
  - intros acc. unfold print. rewrite !append_assoc, !lex_run_app.
    change (lex_run "pub static ref MAT_INTERNAL" (acc, MNone)) with (TId "ref" :: TId "static" :: TId "pub" :: acc, MId "MAT_INTERNAL").
    rewrite run_id by apply str_id. reflexivity.
  - unfold mat_toks. rewrite flat_map_map. apply lexes_for. intros row Hr. apply lexes_row, H, Hr.
Qed.

(** the loop over enumerate: rows of t *)
Lemma enumerate_rest p t l : forall i, i mod t <> 0 \/ l = [] -> i mod t + List.length l = t -> l <> [] ->
  print_enumerate p t i l = (for_print (print_hex p) l ++ print "],")%string.
Proof.
  induction l as [|v l IH]; intros i Hi Hl N; [contradiction|]. destruct Hi as [Hi|Hi]; [|discriminate]. cbn [print_enumerate].
  cbn [List.length] in Hl. assert (Ht : t <> 0) by lia.
  rewrite (proj2 (Nat.eqb_neq _ _) Hi). destruct l as [|w l].
  - cbn [List.length] in Hl. rewrite (proj2 (Nat.eqb_eq _ _)) by lia. cbn [print_enumerate for_print fold_right]. rewrite !append_nil. reflexivity.
  - cbn [List.length] in Hl. rewrite (proj2 (Nat.eqb_neq _ _)) by lia.
    assert (E : S i mod t = S (i mod t)).
    { rewrite <- Nat.add_1_r, Nat.add_mod by exact Ht. rewrite (Nat.mod_small 1) by lia. rewrite Nat.mod_small by lia. lia. }
    rewrite IH; [|left; lia|rewrite E; cbn [List.length]; lia|discriminate]. cbn [for_print fold_right]. rewrite !append_assoc. reflexivity.
Qed.
Lemma enumerate_app p t l l' : forall i, print_enumerate p t i (l ++ l') = (print_enumerate p t i l ++ print_enumerate p t (i + List.length l) l')%string.
Proof.
  induction l as [|v l IH]; intros i; [cbn; rewrite Nat.add_0_r; reflexivity|]. cbn [print_enumerate app List.length]. rewrite IH, !append_assoc.
  replace (i + S (List.length l)) with (S i + List.length l) by lia. reflexivity.
Qed.
Lemma enumerate_row p t row k : 1 <= t -> List.length row = t -> print_enumerate p t (k * t) row = ("vec![" ++ for_print (print_hex p) row ++ print "],")%string.
Proof.
  intros Ht Hl. destruct row as [|v row]; [cbn in Hl; lia|]. cbn [print_enumerate]. rewrite Nat.mod_mul by lia. change (0 =? 0) with true. cbv iota.
  cbn [List.length] in Hl. destruct row as [|w row].
  - cbn [List.length] in Hl. rewrite (proj2 (Nat.eqb_eq _ _)) by lia. cbn [print_enumerate for_print fold_right]. rewrite !append_nil. reflexivity.
  - cbn [List.length] in Hl. rewrite (proj2 (Nat.eqb_neq _ _)) by lia.
    assert (E : S (k * t) mod t = 1) by (replace (S (k * t)) with (1 + k * t) by lia; rewrite Nat.mod_add by lia; apply Nat.mod_small; lia).
    rewrite enumerate_rest; [|left; lia|rewrite E; cbn [List.length]; lia|discriminate]. cbn [for_print fold_right]. rewrite !append_assoc. reflexivity.
Qed.
Lemma enumerate_rows p t rows : 1 <= t -> (forall row, In row rows -> List.length row = t) -> forall k,
  print_enumerate p t (k * t) (concat rows) = for_print (fun row => "vec![" ++ for_print (print_hex p) row ++ print "],")%string rows.
Proof.
  intros Ht. induction rows as [|row rows IH]; intros H k; [reflexivity|]. cbn [concat for_print fold_right].
  rewrite enumerate_app, enumerate_row by (auto; apply H; now left). f_equal.
  rewrite (H row) by now left. replace (k * t + t) with (S k * t) by lia. apply IH. intros; apply H; now right.
Qed.
Lemma lexes_enumerate p t rows : 1 <= t -> (forall row, In row rows -> List.length row = t /\ canonical p row) ->
  lexes (print_enumerate p t 0 (concat rows)) (mat_toks (map (map (to_hex p)) rows)).
Proof.
  intros Ht H. change 0 with (0 * t). rewrite enumerate_rows by (auto; intros; apply H; assumption).
  unfold mat_toks. rewrite flat_map_map. apply lexes_for. intros row Hr. apply lexes_row, H, Hr.
Qed.
Lemma lexes_rc p t rows : 1 <= t -> (forall row, In row rows -> List.length row = t /\ canonical p row) ->
  lexes (print_rc p t (concat rows)) (static_toks (name_rc t) ty_mat ++ vec_open ++ mat_toks (map (map (to_hex p)) rows) ++ [sym "]"; sym ";"]).
Proof.
  intros Ht H. unfold print_rc. rewrite app_assoc. apply lexes_app; [|apply lexes_app; [|apply lexes_end]].
  - intros acc. unfold print. rewrite !append_assoc, !lex_run_app.
    change (lex_run "pub static ref RC" (acc, MNone)) with (TId "ref" :: TId "static" :: TId "pub" :: acc, MId "RC").
    rewrite run_id by apply str_id. reflexivity.
  - apply lexes_enumerate; assumption.
Qed.
Lemma lexes_vector p t l : 1 <= t -> List.length l = t -> canonical p l ->
  lexes (print_vector p t l) (row_toks (map (to_hex p) l) ++ [sym "]"; sym ";"]).
Proof.
  intros Ht Hl H. unfold print_vector. apply lexes_app; [|intros acc; reflexivity].
  change 0 with (0 * t). rewrite enumerate_row by assumption. apply lexes_row. exact H.
Qed.

Definition args_toks (t alpha rf rp : nat) : list (list token) :=
  [[TId (str t)]; [TId (str alpha)]; [TId (str rf)]; [TId (str rp)]; [sym "&"; TId (name_diag t)]; [sym "&"; TId (name_rc t)]].
Fixpoint comma_sep (l : list (list token)) : list token :=
  match l with [] => [] | [a] => a | a :: l => a ++ sym "," :: comma_sep l end.
Definition call_toks : list token := [TId "Arc"; sym ":"; sym ":"; TId "new"; sym "("; TId "PoseidonParams"; sym ":"; sym ":"; TId "new"; sym "("].
Lemma lexes_params t alpha rf rp :
  lexes (print_params t alpha rf rp) (static_toks (name_params t) ty_arc ++ call_toks ++ comma_sep (args_toks t alpha rf rp) ++ [sym ")"; sym ")"; sym ";"; sym "}"]).
Proof.
  intros acc. unfold print_params, print. rewrite !append_assoc, !lex_run_app.
  change (lex_run "pub static ref POSEIDON_" (acc, MNone)) with (TId "ref" :: TId "static" :: TId "pub" :: acc, MId "POSEIDON_").
  rewrite run_id by apply str_id.
  change "_PARAMS: Arc<PoseidonParams<Scalar>> = Arc::new(PoseidonParams::new("%string with ("_PARAMS" ++ ": Arc<PoseidonParams<Scalar>> = Arc::new(PoseidonParams::new(")%string.
  rewrite lex_run_app, run_id by reflexivity. rewrite append_assoc.
  set (n0 := ("POSEIDON_" ++ str t ++ "_PARAMS")%string).
  match goal with |- context [lex_run ": Arc<PoseidonParams<Scalar>> = Arc::new(PoseidonParams::new(" (?a, MId n0)] =>
    change (lex_run ": Arc<PoseidonParams<Scalar>> = Arc::new(PoseidonParams::new(" (a, MId n0)) with
      (rev call_toks ++ sym "=" :: rev ty_arc ++ sym ":" :: TId n0 :: a, MNone) end.
  set (a0 := _ ++ sym "=" :: _). rewrite str_run.
  change (lex_run ", " (a0, MId (str t))) with (sym "," :: TId (str t) :: a0, MNone). rewrite str_run.
  match goal with |- context [lex_run ", " (?a, MId ?u)] => change (lex_run ", " (a, MId u)) with (sym "," :: TId u :: a, MNone) end. rewrite str_run.
  match goal with |- context [lex_run ", " (?a, MId ?u)] => change (lex_run ", " (a, MId u)) with (sym "," :: TId u :: a, MNone) end. rewrite str_run.
  match goal with |- context [lex_run ", &MAT_DIAG" (?a, MId ?u)] => change (lex_run ", &MAT_DIAG" (a, MId u)) with (sym "&" :: sym "," :: TId u :: a, MId "MAT_DIAG") end.
  rewrite run_id by apply str_id. change "_M_1, &RC"%string with ("_M_1" ++ ", &RC")%string. rewrite lex_run_app, run_id by reflexivity. rewrite append_assoc.
  match goal with |- context [lex_run ", &RC" (?a, MId ?u)] => change (lex_run ", &RC" (a, MId u)) with (sym "&" :: sym "," :: TId u :: a, MId "RC") end.
  rewrite run_id by apply str_id. unfold a0. reflexivity.
Qed.

(** ** the whole text *)
Definition out_toks (p : Z) (t alpha rf rp : nat) (diag : list Z) (mat rows : list (list Z)) (a b : list Z) : list token :=
  header_toks ++
  (static_toks (name_diag t) ty_vec ++ vec_open ++ flat_map lit_toks (map (to_hex p) diag) ++ [sym "]"; sym ";"]) ++
  (static_toks (name_internal t) ty_mat ++ vec_open ++ mat_toks (map (map (to_hex p)) mat) ++ [sym "]"; sym ";"]) ++
  (static_toks (name_rc t) ty_mat ++ vec_open ++ mat_toks (map (map (to_hex p)) rows) ++ [sym "]"; sym ";"]) ++
  (static_toks (name_params t) ty_arc ++ call_toks ++ comma_sep (args_toks t alpha rf rp) ++ [sym ")"; sym ")"; sym ";"; sym "}"]) ++
  (row_toks (map (to_hex p) a) ++ [sym "]"; sym ";"]) ++ (row_toks (map (to_hex p) b) ++ [sym "]"; sym ";"]).
Lemma lex_output p t alpha rf rp diag mat rows a b : printable p t diag mat rows a b ->
  lex (script_output p t alpha rf rp diag mat (concat rows) a b) = Some (out_toks p t alpha rf rp diag mat rows a b).
Proof.
  intros [Ht Hd Hm Hr [La Ha] [Lb Hb]]. apply lexes_lex. unfold script_output, out_toks.
  apply lexes_app; [exact lexes_header|]. apply lexes_app; [apply lexes_diag; exact Hd|].
  apply lexes_app; [apply lexes_internal; exact Hm|]. apply lexes_app; [apply lexes_rc; assumption|].
  apply lexes_app; [apply lexes_params|]. apply lexes_app; apply lexes_vector; assumption.
Qed.

(** ** reading *)
Lemma token_eqb_refl a : token_eqb a a = true.
Proof. destruct a; cbn; [apply String.eqb_refl|apply String.eqb_refl|apply Ascii.eqb_refl]. Qed.
Lemma eat_app pre l : eat pre (pre ++ l) = Some l.
Proof. induction pre as [|a pre IH]; [reflexivity|]. cbn. rewrite token_eqb_refl. exact IH. Qed.
Definition no_tok (a : token) (l : list token) : bool := forallb (fun b => negb (token_eqb a b)) l.
Lemma no_tok_app a l l' : no_tok a (l ++ l') = no_tok a l && no_tok a l'.
Proof. apply forallb_app. Qed.
Lemma skip_past_app a l l' : no_tok a l = true -> skip_past a (l ++ a :: l') = l'.
Proof.
  induction l as [|b l IH]; intros H; cbn in *; [rewrite token_eqb_refl; reflexivity|].
  apply andb_prop in H as [A B]. apply negb_true_iff in A. rewrite A. apply IH, B.
Qed.
Lemma skip_past_no a l l' : no_tok a l = true -> skip_past a (l ++ l') = skip_past a l'.
Proof.
  induction l as [|b l IH]; intros H; cbn in *; [reflexivity|]. apply andb_prop in H as [A B]. apply negb_true_iff in A. rewrite A. apply IH, B.
Qed.
Lemma find_skip name l l' : no_tok (TId "static") l = true -> find_static name (l ++ l') = find_static name l'.
Proof.
  induction l as [|b l IH]; intros H; [reflexivity|]. cbn [no_tok forallb] in H. apply andb_prop in H as [A B]. apply negb_true_iff in A.
  cbn [app]. cbn [find_static eat]. rewrite A. apply IH, B.
Qed.
Lemma find_here name ty l : no_tok (sym "=") ty = true -> find_static name (static_toks name ty ++ l) = Some l.
Proof.
  intros H. unfold static_toks. cbn [app find_static eat]. cbn [token_eqb]. 
  change (String.eqb "static" "pub") with false. cbv iota. change (String.eqb "static" "static") with true. change (String.eqb "ref" "ref") with true.
  cbv iota. rewrite String.eqb_refl. cbn [sym token_eqb]. rewrite Ascii.eqb_refl. f_equal.
  rewrite <- app_assoc. cbn [app]. apply skip_past_app. exact H.
Qed.
Lemma find_other name name' ty l : name <> name' -> name' <> "static"%string -> no_tok (TId "static") ty = true ->
  find_static name (static_toks name' ty ++ l) = find_static name l.
Proof.
  intros N N' H. unfold static_toks. rewrite <- !app_assoc. cbn [app].
  change (find_static name ([TId "pub"] ++ TId "static" :: TId "ref" :: TId name' :: sym ":" :: ty ++ sym "=" :: l) = find_static name l).
  rewrite find_skip by reflexivity.
  cbn [find_static eat token_eqb]. change (String.eqb "static" "static") with true. change (String.eqb "ref" "ref") with true. cbv iota.
  rewrite (proj2 (String.eqb_neq _ _) N). change (String.eqb "static" "ref") with false. cbv iota.
  rewrite (proj2 (String.eqb_neq "static" name')) by congruence. cbv iota.
  change (find_static name ([sym ":"] ++ ty ++ [sym "="] ++ l) = find_static name l).
  rewrite find_skip by reflexivity. rewrite find_skip by exact H. apply find_skip. reflexivity.
Qed.
Lemma no_tok_lits a l : token_eqb a (TId "from_hex") = false -> token_eqb a (sym "(") = false -> token_eqb a (sym ")") = false -> token_eqb a (sym ",") = false ->
  (forall s, token_eqb a (TStr s) = false) -> no_tok a (flat_map lit_toks l) = true.
Proof.
  intros H1 H2 H3 H4 H5. induction l as [|s l IH]; [reflexivity|]. cbn [flat_map]. rewrite no_tok_app, IH, andb_true_r.
  cbn [no_tok lit_toks forallb]. rewrite H1, H2, H3, H4, H5. reflexivity.
Qed.
Lemma no_tok_mat a l : token_eqb a (TId "from_hex") = false -> token_eqb a (sym "(") = false -> token_eqb a (sym ")") = false -> token_eqb a (sym ",") = false ->
  (forall s, token_eqb a (TStr s) = false) -> no_tok a vec_open = true -> token_eqb a (sym "]") = false -> no_tok a (mat_toks l) = true.
Proof.
  intros H1 H2 H3 H4 H5 H6 H7. induction l as [|r l IH]; [reflexivity|]. unfold mat_toks in *. cbn [flat_map]. rewrite no_tok_app, IH, andb_true_r.
  unfold row_toks. rewrite !no_tok_app, H6, no_tok_lits by assumption. cbn [no_tok forallb]. rewrite H7, H4. reflexivity.
Qed.

(** values *)
Lemma parse_lit fuel s r : parse_val (S fuel) ([TId "from_hex"; sym "("; TStr s; sym ")"] ++ r) = Some (RLit s, r).
Proof. reflexivity. Qed.
Lemma parse_items_S fuel l : parse_items (S fuel) l =
  match eat [sym "]"] l with
  | Some r => Some ([], r)
  | None => match parse_val fuel l with
            | Some (v, r) => match eat [sym ","] r with
                             | Some r => option_map (fun x => (v :: fst x, snd x)) (parse_items fuel r)
                             | None => option_map (pair [v]) (eat [sym "]"] r)
                             end
            | None => None
            end
  end.
Proof. reflexivity. Qed.
Lemma parse_lits l : forall fuel r, List.length (flat_map lit_toks l ++ sym "]" :: r) <= fuel ->
  parse_items fuel (flat_map lit_toks l ++ sym "]" :: r) = Some (map RLit l, r).
Proof.
  induction l as [|s l IH]; intros fuel r H; [destruct fuel; [cbn in H; lia|reflexivity]|].
  cbn [flat_map] in *. rewrite <- app_assoc in *. destruct fuel as [|[|fuel]]; [cbn in H; lia..|].
  set (X := flat_map lit_toks l ++ sym "]" :: r) in *. rewrite parse_items_S.
  change (eat [sym "]"] (lit_toks s ++ X)) with (@None (list token)). cbv iota.
  change (lit_toks s ++ X) with ([TId "from_hex"; sym "("; TStr s; sym ")"] ++ sym "," :: X) in *.
  rewrite parse_lit. change (eat [sym ","] (sym "," :: X)) with (Some X). cbv iota. unfold X. rewrite IH; [reflexivity|].
  fold X. cbn [app List.length] in H. lia.
Qed.
Lemma parse_vec l fuel r : List.length (vec_open ++ flat_map lit_toks l ++ sym "]" :: r) <= S fuel ->
  parse_val fuel (vec_open ++ flat_map lit_toks l ++ sym "]" :: r) = Some (RVec (map RLit l), r).
Proof.
  set (X := flat_map lit_toks l ++ sym "]" :: r). intros H. destruct fuel as [|fuel]; [cbn [vec_open app List.length] in H; lia|]. cbn [parse_val].
  change (eat [TId "from_hex"; sym "("] (vec_open ++ X)) with (@None (list token)). change (eat [TId "vec"; sym "!"; sym "["] (vec_open ++ X)) with (Some X).
  cbv iota. unfold X. rewrite parse_lits; [reflexivity|]. fold X. cbn [vec_open app List.length] in H. lia.
Qed.
Lemma parse_rows l : forall fuel r, List.length (mat_toks l ++ sym "]" :: r) <= fuel ->
  parse_items fuel (mat_toks l ++ sym "]" :: r) = Some (map (fun x => RVec (map RLit x)) l, r).
Proof.
  induction l as [|x l IH]; intros fuel r H; [destruct fuel; [cbn in H; lia|reflexivity]|].
  unfold mat_toks in *. cbn [flat_map] in *. rewrite <- app_assoc in *. destruct fuel as [|fuel]; [cbn in H; lia|].
  set (X := flat_map row_toks l ++ sym "]" :: r) in *. unfold row_toks in *. rewrite <- !app_assoc in *. rewrite parse_items_S.
  change (eat [sym "]"] (vec_open ++ flat_map lit_toks x ++ [sym "]"; sym ","] ++ X)) with (@None (list token)). cbv iota.
  change ([sym "]"; sym ","] ++ X) with (sym "]" :: sym "," :: X) in *.
  rewrite parse_vec by exact H. change (eat [sym ","] (sym "," :: X)) with (Some X). cbv iota. unfold X. rewrite IH; [reflexivity|].
  fold X. rewrite !app_length in H. cbn [List.length vec_open] in H. lia.
Qed.
Lemma parse_mat l fuel r : List.length (vec_open ++ mat_toks l ++ sym "]" :: r) <= S fuel ->
  parse_val fuel (vec_open ++ mat_toks l ++ sym "]" :: r) = Some (RVec (map (fun x => RVec (map RLit x)) l), r).
Proof.
  set (X := mat_toks l ++ sym "]" :: r). intros H. destruct fuel as [|fuel]; [cbn [vec_open app List.length] in H; lia|]. cbn [parse_val].
  change (eat [TId "from_hex"; sym "("] (vec_open ++ X)) with (@None (list token)). change (eat [TId "vec"; sym "!"; sym "["] (vec_open ++ X)) with (Some X).
  cbv iota. unfold X. rewrite parse_rows; [reflexivity|]. fold X. cbn [vec_open app List.length] in H. lia.
Qed.
Lemma eval_row {F} {Fo : FOps F} p l : canonical p l -> eval_vec (RVec (map RLit (map (to_hex p) l))) = Ok (map (f_of_Z (F := F)) l).
Proof.
  intros H. cbn [eval_vec]. induction l as [|v l IH]; [reflexivity|]. cbn [map mapM eval_lit]. rewrite to_hex_round_trip by (apply H; now left).
  cbn [bind]. rewrite IH by (intros w Hw; apply H; now right). reflexivity.
Qed.
Lemma eval_rows {F} {Fo : FOps F} p l : (forall row, In row l -> canonical p row) ->
  eval_mat (RVec (map (fun x => RVec (map RLit x)) (map (map (to_hex p)) l))) = Ok (map (map (f_of_Z (F := F))) l).
Proof.
  intros H. cbn [eval_mat]. induction l as [|v l IH]; [reflexivity|]. cbn [map mapM]. rewrite eval_row by (apply H; now left).
  cbn [bind]. rewrite IH by (intros w Hw; apply H; now right). reflexivity.
Qed.

Section Read.
  Context (p : Z) (t alpha rf rp : nat) (diag : list Z) (mat rows : list (list Z)) (a b : list Z).
  Hypothesis HW : printable p t diag mat rows a b.
  Local Notation text := (script_output p t alpha rf rp diag mat (concat rows) a b).
  Local Ltac skip := rewrite ?app_assoc_reverse; first
    [ rewrite find_skip by (first [vm_compute; reflexivity | apply no_tok_lits; intros; reflexivity | apply no_tok_mat; intros; reflexivity])
    | rewrite find_other by (first [vm_compute; reflexivity | discriminate]) ].

  Lemma static_diag : exists r, static_tokens (name_diag t) text = Some (vec_open ++ flat_map lit_toks (map (to_hex p) diag) ++ sym "]" :: sym ";" :: r).
  Proof.
    unfold static_tokens. rewrite (lex_output _ _ _ _ _ _ _ _ _ _ HW). unfold out_toks. rewrite find_skip by (vm_compute; reflexivity).
    rewrite <- !app_assoc. rewrite find_here by reflexivity. eexists. reflexivity.
  Qed.
  Lemma static_internal : exists r, static_tokens (name_internal t) text = Some (vec_open ++ mat_toks (map (map (to_hex p)) mat) ++ sym "]" :: sym ";" :: r).
  Proof.
    unfold static_tokens. rewrite (lex_output _ _ _ _ _ _ _ _ _ _ HW). unfold out_toks. rewrite find_skip by (vm_compute; reflexivity).
    rewrite <- !app_assoc. do 4 skip. rewrite find_here by reflexivity. eexists. reflexivity.
  Qed.
  Lemma static_rc : exists r, static_tokens (name_rc t) text = Some (vec_open ++ mat_toks (map (map (to_hex p)) rows) ++ sym "]" :: sym ";" :: r).
  Proof.
    unfold static_tokens. rewrite (lex_output _ _ _ _ _ _ _ _ _ _ HW). unfold out_toks. rewrite find_skip by (vm_compute; reflexivity).
    rewrite <- !app_assoc. do 8 skip. rewrite find_here by reflexivity. eexists. reflexivity.
  Qed.
  Lemma static_params : exists r, static_tokens (name_params t) text = Some (call_toks ++ comma_sep (args_toks t alpha rf rp) ++ sym ")" :: r).
  Proof.
    unfold static_tokens. rewrite (lex_output _ _ _ _ _ _ _ _ _ _ HW). unfold out_toks. rewrite find_skip by (vm_compute; reflexivity).
    rewrite <- !app_assoc. do 12 skip. rewrite find_here by reflexivity. eexists. reflexivity.
  Qed.

  Theorem read_tables F (Fo : FOps F) :
    rust_vec ("MAT_DIAG" ++ str t ++ "_M_1") text = Some (Ok (map (f_of_Z (F := F)) diag)) /\
    rust_mat ("MAT_INTERNAL" ++ str t) text = Some (Ok (map (map (f_of_Z (F := F))) mat)) /\
    rust_mat ("RC" ++ str t) text = Some (Ok (map (map (f_of_Z (F := F))) rows)).
  Proof.
    unfold rust_vec, rust_mat, static_value. split; [|split].
    - destruct static_diag as [r E]. unfold name_diag in E. rewrite E. rewrite parse_vec by lia.
      change (eat [sym ";"] (sym ";" :: r)) with (Some r). cbn [option_map]. rewrite eval_row by apply (pr_diag _ _ _ _ _ _ _ HW). reflexivity.
    - destruct static_internal as [r E]. unfold name_internal in E. rewrite E. rewrite parse_mat by lia.
      change (eat [sym ";"] (sym ";" :: r)) with (Some r). cbn [option_map]. rewrite eval_rows by apply (pr_mat _ _ _ _ _ _ _ HW). reflexivity.
    - destruct static_rc as [r E]. unfold name_rc in E. rewrite E. rewrite parse_mat by lia.
      change (eat [sym ";"] (sym ";" :: r)) with (Some r). cbn [option_map].
      rewrite eval_rows by (intros row Hr; apply (pr_rows _ _ _ _ _ _ _ HW row Hr)). reflexivity.
  Qed.

  Theorem read_call : call_arguments "PoseidonParams" ("POSEIDON_" ++ str t ++ "_PARAMS") text =
    Some [[TId (str t)]; [TId (str alpha)]; [TId (str rf)]; [TId (str rp)]; [sym "&"; TId ("MAT_DIAG" ++ str t ++ "_M_1")]; [sym "&"; TId ("RC" ++ str t)]].
  Proof.
    unfold call_arguments. destruct static_params as [r E]. unfold name_params in E. rewrite E.
    change [TId "Arc"; sym ":"; sym ":"; TId "new"; sym "("; TId "PoseidonParams"; sym ":"; sym ":"; TId "new"; sym "("] with call_toks.
    rewrite eat_app. reflexivity.
  Qed.

  Definition nb (c : token) (l : list token) : nat := List.length (filter (token_eqb c) l).
  Lemma nb_app c l l' : nb c (l ++ l') = nb c l + nb c l'.
  Proof. unfold nb. rewrite filter_app, app_length. reflexivity. Qed.
  Lemma nb_lits c l : (c = sym "[" \/ c = sym "]") -> nb c (flat_map lit_toks l) = 0.
  Proof. intros [-> | ->]; (induction l as [|s l IH]; [reflexivity|cbn [flat_map]; rewrite nb_app, IH; reflexivity]). Qed.
  Lemma nb_rows l : nb (sym "[") (mat_toks l) = List.length l /\ nb (sym "]") (mat_toks l) = List.length l.
  Proof.
    induction l as [|s l [IH1 IH2]]; [split; reflexivity|]. unfold mat_toks in *. cbn [flat_map List.length]. unfold row_toks at 1 3. rewrite !nb_app, IH1, IH2.
    rewrite !nb_lits by auto. split; reflexivity.
  Qed.
  Theorem read_brackets : brackets text = Some (List.length mat + List.length rows + 5, List.length mat + List.length rows + 7).
  Proof.
    unfold brackets. rewrite (lex_output _ _ _ _ _ _ _ _ _ _ HW). cbn [option_map]. f_equal.
    assert (P : forall x y u v : nat, x = u -> y = v -> (x, y) = (u, v)) by congruence.
    assert (Ea : nb (sym "[") header_toks = 0) by (vm_compute; reflexivity). assert (Eb : nb (sym "]") header_toks = 0) by (vm_compute; reflexivity).
    apply P; [change (nb (sym "[") (out_toks p t alpha rf rp diag mat rows a b) = List.length mat + List.length rows + 5)
             |change (nb (sym "]") (out_toks p t alpha rf rp diag mat rows a b) = List.length mat + List.length rows + 7)];
      unfold out_toks, row_toks; rewrite !nb_app; rewrite ?Ea, ?Eb; clear Ea Eb;
      rewrite !(nb_lits _ (map (to_hex p) diag)), !(nb_lits _ (map (to_hex p) a)), !(nb_lits _ (map (to_hex p) b)) by auto;
      rewrite ?(proj1 (nb_rows (map (map (to_hex p)) mat))), ?(proj1 (nb_rows (map (map (to_hex p)) rows))),
        ?(proj2 (nb_rows (map (map (to_hex p)) mat))), ?(proj2 (nb_rows (map (map (to_hex p)) rows))), !map_length.
    - change (nb (sym "[") (comma_sep (args_toks t alpha rf rp))) with 0. change (nb (sym "[") call_toks) with 0.
      change (nb (sym "[") (static_toks (name_diag t) ty_vec)) with 0. change (nb (sym "[") (static_toks (name_internal t) ty_mat)) with 0.
      change (nb (sym "[") (static_toks (name_rc t) ty_mat)) with 0. change (nb (sym "[") (static_toks (name_params t) ty_arc)) with 0.
      change (nb (sym "[") vec_open) with 1. change (nb (sym "[") [sym "]"; sym ";"]) with 0. change (nb (sym "[") [sym "]"; sym ","]) with 0.
      change (nb (sym "[") [sym ")"; sym ")"; sym ";"; sym "}"]) with 0. lia.
    - change (nb (sym "]") (comma_sep (args_toks t alpha rf rp))) with 0. change (nb (sym "]") call_toks) with 0.
      change (nb (sym "]") (static_toks (name_diag t) ty_vec)) with 0. change (nb (sym "]") (static_toks (name_internal t) ty_mat)) with 0.
      change (nb (sym "]") (static_toks (name_rc t) ty_mat)) with 0. change (nb (sym "]") (static_toks (name_params t) ty_arc)) with 0.
      change (nb (sym "]") vec_open) with 0. change (nb (sym "]") [sym "]"; sym ";"]) with 1. change (nb (sym "]") [sym "]"; sym ","]) with 1.
      change (nb (sym "]") [sym ")"; sym ")"; sym ";"; sym "}"]) with 0. lia.
  Qed.

  Lemma nb_lits_round l : nb (sym "(") (flat_map lit_toks l) = nb (sym ")") (flat_map lit_toks l) /\
    nb (sym "{") (flat_map lit_toks l) = 0 /\ nb (sym "}") (flat_map lit_toks l) = 0.
  Proof. induction l as [|s l [H [H1 H2]]]; [repeat split|]. cbn [flat_map]. rewrite !nb_app, H, H1, H2. repeat split. Qed.
  Lemma nb_rows_round l : nb (sym "(") (mat_toks l) = nb (sym ")") (mat_toks l) /\
    nb (sym "{") (mat_toks l) = 0 /\ nb (sym "}") (mat_toks l) = 0.
  Proof.
    induction l as [|s l [H [H1 H2]]]; [repeat split|]. unfold mat_toks in *. cbn [flat_map]. unfold row_toks at 1 3 5 7. rewrite !nb_app, H, H1, H2.
    destruct (nb_lits_round s) as [-> [-> ->]]. repeat split.
  Qed.
  Local Notation T := (out_toks p t alpha rf rp diag mat rows a b).
  Theorem read_round : exists n m, occurrences "(" text = Some n /\ occurrences ")" text = Some n /\ occurrences "{" text = Some m /\ occurrences "}" text = Some m.
  Proof.
    assert (E : nb (sym "(") T = nb (sym ")") T /\ nb (sym "{") T = nb (sym "}") T).
    { unfold out_toks, row_toks. rewrite !nb_app.
      assert (H1 : nb (sym "(") header_toks = nb (sym ")") header_toks) by (vm_compute; reflexivity).
      assert (H2 : nb (sym "{") header_toks = S (nb (sym "}") header_toks)) by (vm_compute; reflexivity).
      rewrite H1, H2. clear H1 H2. generalize (nb (sym ")") header_toks) as h1, (nb (sym "}") header_toks) as h2. intros h1 h2.
      rewrite (proj1 (nb_lits_round (map (to_hex p) diag))), (proj1 (nb_lits_round (map (to_hex p) a))), (proj1 (nb_lits_round (map (to_hex p) b))),
        (proj1 (nb_rows_round (map (map (to_hex p)) mat))), (proj1 (nb_rows_round (map (map (to_hex p)) rows))).
      destruct (nb_lits_round (map (to_hex p) diag)) as [_ [-> ->]], (nb_lits_round (map (to_hex p) a)) as [_ [-> ->]],
        (nb_lits_round (map (to_hex p) b)) as [_ [-> ->]], (nb_rows_round (map (map (to_hex p)) mat)) as [_ [-> ->]],
        (nb_rows_round (map (map (to_hex p)) rows)) as [_ [-> ->]].
      generalize (nb (sym ")") (flat_map lit_toks (map (to_hex p) diag))) as x1, (nb (sym ")") (mat_toks (map (map (to_hex p)) mat))) as x2,
        (nb (sym ")") (mat_toks (map (map (to_hex p)) rows))) as x3, (nb (sym ")") (flat_map lit_toks (map (to_hex p) a))) as x4,
        (nb (sym ")") (flat_map lit_toks (map (to_hex p) b))) as x5. intros x1 x2 x3 x4 x5.
      change (nb (sym "(") (comma_sep (args_toks t alpha rf rp))) with 0. change (nb (sym "(") call_toks) with 2. change (nb (sym "(") (static_toks (name_diag t) ty_vec)) with 0.
      change (nb (sym "(") (static_toks (name_internal t) ty_mat)) with 0. change (nb (sym "(") (static_toks (name_rc t) ty_mat)) with 0. change (nb (sym "(") (static_toks (name_params t) ty_arc)) with 0.
      change (nb (sym "(") vec_open) with 0. change (nb (sym "(") [sym "]"; sym ";"]) with 0. change (nb (sym "(") [sym "]"; sym ","]) with 0.
      change (nb (sym "(") [sym ")"; sym ")"; sym ";"; sym "}"]) with 0. change (nb (sym ")") (comma_sep (args_toks t alpha rf rp))) with 0. change (nb (sym ")") call_toks) with 0.
      change (nb (sym ")") (static_toks (name_diag t) ty_vec)) with 0. change (nb (sym ")") (static_toks (name_internal t) ty_mat)) with 0. change (nb (sym ")") (static_toks (name_rc t) ty_mat)) with 0.
      change (nb (sym ")") (static_toks (name_params t) ty_arc)) with 0. change (nb (sym ")") vec_open) with 0. change (nb (sym ")") [sym "]"; sym ";"]) with 0.
      change (nb (sym ")") [sym "]"; sym ","]) with 0. change (nb (sym ")") [sym ")"; sym ")"; sym ";"; sym "}"]) with 2. change (nb (sym "{") (comma_sep (args_toks t alpha rf rp))) with 0.
      change (nb (sym "{") call_toks) with 0. change (nb (sym "{") (static_toks (name_diag t) ty_vec)) with 0. change (nb (sym "{") (static_toks (name_internal t) ty_mat)) with 0.
      change (nb (sym "{") (static_toks (name_rc t) ty_mat)) with 0. change (nb (sym "{") (static_toks (name_params t) ty_arc)) with 0. change (nb (sym "{") vec_open) with 0.
      change (nb (sym "{") [sym "]"; sym ";"]) with 0. change (nb (sym "{") [sym "]"; sym ","]) with 0. change (nb (sym "{") [sym ")"; sym ")"; sym ";"; sym "}"]) with 0.
      change (nb (sym "}") (comma_sep (args_toks t alpha rf rp))) with 0. change (nb (sym "}") call_toks) with 0. change (nb (sym "}") (static_toks (name_diag t) ty_vec)) with 0.
      change (nb (sym "}") (static_toks (name_internal t) ty_mat)) with 0. change (nb (sym "}") (static_toks (name_rc t) ty_mat)) with 0. change (nb (sym "}") (static_toks (name_params t) ty_arc)) with 0.
      change (nb (sym "}") vec_open) with 0. change (nb (sym "}") [sym "]"; sym ";"]) with 0. change (nb (sym "}") [sym "]"; sym ","]) with 0.
      change (nb (sym "}") [sym ")"; sym ")"; sym ";"; sym "}"]) with 1. split; lia. }
    destruct E as [E1 E2]. unfold occurrences. rewrite (lex_output _ _ _ _ _ _ _ _ _ _ HW). generalize dependent T. intros l E1 E2. cbn [option_map].
    exists (nb (sym "(") l), (nb (sym "{") l). split; [reflexivity|]. split; [rewrite E1; reflexivity|]. split; [reflexivity|rewrite E2; reflexivity].
  Qed.

  Theorem read_test F (Fo : FOps F) : exists ra rb, test_rows text = Some (ra, rb) /\
    eval_vec ra = Ok (map (f_of_Z (F := F)) a) /\ eval_vec rb = Ok (map (f_of_Z (F := F)) b).
  Proof.
    destruct HW as [_ _ _ _ [_ Ha] [_ Hb]]. exists (RVec (map RLit (map (to_hex p) a))), (RVec (map RLit (map (to_hex p) b))).
    split; [|split; apply eval_row; assumption]. unfold test_rows. rewrite (lex_output _ _ _ _ _ _ _ _ _ _ HW).
    assert (E : skip_past (sym "}") (skip_past (sym "}") (out_toks p t alpha rf rp diag mat rows a b)) =
      vec_open ++ flat_map lit_toks (map (to_hex p) a) ++ sym "]" :: sym "," :: sym "]" :: sym ";" ::
      vec_open ++ flat_map lit_toks (map (to_hex p) b) ++ sym "]" :: [sym ","; sym "]"; sym ";"]).
    { unfold out_toks.
      assert (H0 : exists u v, header_toks = u ++ sym "}" :: v /\ no_tok (sym "}") u = true /\ no_tok (sym "}") v = true).
      { exists (firstn (List.length header_toks - List.length (skip_past (sym "}") header_toks) - 1) header_toks), (skip_past (sym "}") header_toks).
        vm_compute. repeat split. }
      destruct H0 as [u [v [-> [Hu Hv]]]]. rewrite <- app_assoc. cbn [app]. rewrite skip_past_app by exact Hu. rewrite <- !app_assoc.
      rewrite skip_past_no by exact Hv.
      do 15 (rewrite skip_past_no by (first [vm_compute; reflexivity | apply no_tok_lits; intros; reflexivity | apply no_tok_mat; intros; reflexivity])).
      match goal with |- context [[sym ")"; sym ")"; sym ";"; sym "}"] ++ ?l] =>
        change ([sym ")"; sym ")"; sym ";"; sym "}"] ++ l) with ([sym ")"; sym ")"; sym ";"] ++ sym "}" :: l) end.
      rewrite skip_past_app by reflexivity. unfold row_toks. rewrite <- !app_assoc. reflexivity. }
    rewrite E. clear E. rewrite parse_vec by lia. 
    match goal with |- context [eat [sym ","; sym "]"; sym ";"] (sym "," :: sym "]" :: sym ";" :: ?r)] =>
      change (eat [sym ","; sym "]"; sym ";"] (sym "," :: sym "]" :: sym ";" :: r)) with (Some r) end. cbv iota beta.
    rewrite parse_vec by lia. reflexivity.
  Qed.
End Read.

(** ** different parameters, different text *)
Local Definition z_ops : FOps Z := {| f0 := 0%Z; f1 := 1%Z; fadd := Z.add; fsub := Z.sub; fmul := Z.mul; finv := fun z => z; feqb := Z.eqb; f_of_Z := fun z => z; f_to_Z := fun z => z |}.
Lemma str_inj n m : str n = str m -> n = m.
Proof.
  unfold str. intros H. assert (E : NilZero.uint_of_string (NilZero.string_of_uint (Nat.to_uint n)) = NilZero.uint_of_string (NilZero.string_of_uint (Nat.to_uint m))) by now rewrite H.
  assert (N : forall k, Nat.to_uint k <> Decimal.Nil).
  { intros k Hk. assert (k = 0) by (rewrite <- (DecimalNat.Unsigned.of_to k), Hk; reflexivity). subst k. discriminate. }
  rewrite !NilZero.usu in E by apply N. injection E as E. apply DecimalNat.Unsigned.to_uint_inj, E.
Qed.
Theorem output_injective p t alpha rf rp diag mat rows a b p' t' alpha' rf' rp' diag' mat' rows' a' b' :
  printable p t diag mat rows a b -> printable p' t' diag' mat' rows' a' b' ->
  script_output p t alpha rf rp diag mat (concat rows) a b = script_output p' t' alpha' rf' rp' diag' mat' (concat rows') a' b' ->
  t = t' /\ alpha = alpha' /\ rf = rf' /\ rp = rp' /\ diag = diag' /\ mat = mat' /\ rows = rows' /\ a = a' /\ b = b'.
Proof.
  intros HW HW' E.
  destruct (read_test _ _ alpha rf rp _ _ _ _ _ HW Z z_ops) as [ra [rb [E1 [E2 E3]]]].
  destruct (read_test _ _ alpha' rf' rp' _ _ _ _ _ HW' Z z_ops) as [ra' [rb' [E1' [E2' E3']]]].
  rewrite E, E1' in E1. injection E1 as -> ->. rewrite E2 in E2'. rewrite E3 in E3'.
  cbn [f_of_Z z_ops] in E2', E3'. rewrite !map_id in E2', E3'. injection E2' as <-. injection E3' as <-.
  assert (Et : t = t') by (rewrite <- (proj1 (pr_a _ _ _ _ _ _ _ HW)); apply (pr_a _ _ _ _ _ _ _ HW')). subst t'.
  destruct (read_tables _ _ alpha rf rp _ _ _ _ _ HW Z z_ops) as [F1 [F2 F3]].
  destruct (read_tables _ _ alpha' rf' rp' _ _ _ _ _ HW' Z z_ops) as [G1 [G2 G3]].
  rewrite E, G1 in F1. rewrite E, G2 in F2. rewrite E, G3 in F3. injection F1 as F1. injection F2 as F2. injection F3 as F3.
  assert (M : forall l : list (list Z), map (map (f_of_Z (FOps := z_ops))) l = l).
  { intros l. rewrite <- (map_id l) at 2. apply map_ext. intros r. apply map_id. }
  rewrite !M in F2, F3. change (map (fun z : Z => z) diag' = map (fun z : Z => z) diag) in F1. rewrite !map_id in F1.
  pose proof (read_call _ _ alpha rf rp _ _ _ _ _ HW) as H. rewrite E, (read_call _ _ alpha' rf' rp' _ _ _ _ _ HW') in H.
  assert (K : map TId [str alpha'; str rf'; str rp'] = map TId [str alpha; str rf; str rp]).
  { cbn [map]. assert (P : forall x y z u v : list token, forall x' y' z' u' v' : list token, Some [x; y; z; u; v; [sym "&"; TId ("RC" ++ str t)]] = Some [x'; y'; z'; u'; v'; [sym "&"; TId ("RC" ++ str t)]] -> y = y' /\ z = z' /\ u = u').
    { intros; repeat split; congruence. }
    apply P in H as [H1 [H2 H3]]. injection H1 as ->. injection H2 as ->. injection H3 as ->. reflexivity. }
  injection K as K1 K2 K3. apply str_inj in K1, K2, K3. repeat split; congruence.
Qed.
