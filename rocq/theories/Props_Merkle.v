(** * Properties of the Merkle accumulators: C33-C42 and the Merkle part of C20

    [fuel] bounds the loop iterations of the model; 64 is always enough for a slice length (C42). *)
From Coq Require Import Permutation.
From Verif Require Import Base Field Spec SpecPoseidon2 SpecPoseidon SpecGmimc SpecNeptune ModelUtils ModelPoseidon2 ModelPoseidon
  ModelGmimc ModelNeptune ModelMerkle SpecMerkle SpecMerkleVariants F13.
From Verif Require ProofMerkle ProofMerkleAcc ProofMerkleFin ProofMerkleHash.

(** free compression for the examples: it records the tree *)
Inductive tm : Type := Leaf (n : nat) | Node (h : nat) (l r : tm).
Definition tm_dec : forall a b : tm, {a = b} + {a <> b}.
Proof. decide equality; apply Nat.eq_dec. Defined.
Definition tm_fp (l : list tm) : res tm := match l with a :: b :: _ => Ok (Node 0 a b) | _ => Panic end.
Definition tm_lv (h : nat) (a b : tm) : res tm := Ok (Node h a b).
Lemma tm_fp_ok a b : tm_fp [a; b] = Ok (Node 0 a b). Proof. reflexivity. Qed.
Lemma tm_lv_ok h a b : tm_lv h a b = Ok (Node h a b). Proof. reflexivity. Qed.

(** a digest for the examples: puts 7 in front of the message; the state is the message so far *)
Definition toy_update (h x : list nat) : list nat := h ++ x.
Definition toy_fin (h : list nat) : list nat * list nat := (7 :: h, []).
Lemma toy_contract : digest_contract [] toy_update toy_fin (fun m => 7 :: m) (fun h => h).
Proof. constructor; reflexivity. Qed.

(** ** C33 *)
Theorem C33_merkle_fp_root :
  forall A dbg fuel (compress : list A -> res A) (c : A -> A -> A) set,
    (forall a b, compress [a; b] = Ok (c a b)) ->
    set <> [] -> (N.of_nat (length set) <= 2 ^ 63)%N -> 64 <= fuel ->
    exists root, merkle_root (fun _ => c) set = Some root /\ fp_accumulate dbg fuel compress set = Ok root.
Proof. intros A dbg fuel compress c set. exact (ProofMerkleAcc.fp_acc_root dbg fuel compress c set). Qed.
Print Assumptions C33_merkle_fp_root.

Example C33_ex3 dbg : fp_accumulate dbg 64 tm_fp [Leaf 1; Leaf 2; Leaf 3] = Ok (Node 0 (Node 0 (Leaf 1) (Leaf 2)) (Node 0 (Leaf 3) (Leaf 3))).
Proof. destruct dbg; vm_compute; reflexivity. Qed.
Example C33_ex1 : fp_accumulate true 64 tm_fp [Leaf 1] = Ok (Node 0 (Leaf 1) (Leaf 1)).
Proof. vm_compute. reflexivity. Qed.
Example C33_ex5 : fp_accumulate true 64 tm_fp (map Leaf [1;2;3;4;5]) =
  Ok (Node 0 (Node 0 (Node 0 (Leaf 1) (Leaf 2)) (Node 0 (Leaf 3) (Leaf 4))) (Node 0 (Node 0 (Leaf 5) (Leaf 5)) (Node 0 (Leaf 5) (Leaf 5)))).
Proof. vm_compute. reflexivity. Qed.

(** ** C34 *)
Theorem C34_digest_history_independent :
  forall B H h_new h_update h_finalize_reset (hash : list B -> list B) (absorbed : H -> list B),
    digest_contract h_new h_update h_finalize_reset hash absorbed ->
  forall dbg fuel history set start,
    start = f2_new h_new \/ start = f2_default h_new ->
    let after := fold_left (fun h s => snd (f2_accumulate h_update h_finalize_reset dbg fuel s h)) history start in
    fst (f2_accumulate h_update h_finalize_reset dbg fuel set after) = fst (f2_accumulate h_update h_finalize_reset dbg fuel set start) /\
    (set <> [] -> (N.of_nat (length set) <= 2 ^ 63)%N -> 64 <= fuel ->
     exists root, merkle_root (fun _ l r => hash (l ++ r)) set = Some root /\
       fst (f2_accumulate h_update h_finalize_reset dbg fuel set after) = Ok root).
Proof. exact @ProofMerkleFin.f2_history_root. Qed.
Print Assumptions C34_digest_history_independent.

(** three earlier calls, the second of which panics *)
Example C34_ex : let acc := f2_accumulate toy_update toy_fin true 64 in
  let h1 := snd (acc [[1]; [2]] []) in let h2 := snd (acc [] h1) in let h3 := snd (acc [[9]] h2) in
  fst (acc [] h1) = Panic /\ fst (acc [[1]; [2]; [3]] h3) = Ok [7; 7; 1; 2; 7; 3; 3].
Proof. vm_compute. split; reflexivity. Qed.

(** ** C35 *)
Theorem C35_orchard_levels :
  forall A dbg fuel (compress : nat -> A -> A -> res A) (c : nat -> A -> A -> A) set,
    (forall h a b, compress h a b = Ok (c h a b)) ->
    set <> [] -> (N.of_nat (length set) <= 2 ^ 63)%N -> 64 <= fuel ->
    exists root, merkle_root c set = Some root /\ orchard_accumulate dbg fuel compress set = Ok root.
Proof. intros A dbg fuel compress c set. exact (ProofMerkleAcc.orchard_acc_root dbg fuel compress c set). Qed.
Print Assumptions C35_orchard_levels.

Theorem C35_sapling_levels :
  forall A dbg fuel (compress : nat -> A -> A -> res A) (c : nat -> A -> A -> A) set,
    (forall h a b, compress h a b = Ok (c h a b)) ->
    set <> [] -> (N.of_nat (length set) <= 2 ^ 63)%N -> 64 <= fuel ->
    exists root, merkle_root c set = Some root /\ sapling_accumulate dbg fuel compress set = Ok root.
Proof. intros A dbg fuel compress c set. exact (ProofMerkleAcc.orchard_acc_root dbg fuel compress c set). Qed.
Print Assumptions C35_sapling_levels.

Example C35_ex : orchard_accumulate true 64 tm_lv (map Leaf [1;2;3;4;5]) =
  Ok (Node 2 (Node 1 (Node 0 (Leaf 1) (Leaf 2)) (Node 0 (Leaf 3) (Leaf 4))) (Node 1 (Node 0 (Leaf 5) (Leaf 5)) (Node 0 (Leaf 5) (Leaf 5)))).
Proof. vm_compute. reflexivity. Qed.
Example C35_ex_sapling : sapling_accumulate true 64 tm_lv (map Leaf [1;2;3]) = Ok (Node 1 (Node 0 (Leaf 1) (Leaf 2)) (Node 0 (Leaf 3) (Leaf 3))).
Proof. vm_compute. reflexivity. Qed.

(** the four variants are accumulators in the sense used below *)
Example accumulator_ex_fp : accumulator true 64 tm (fun _ => Node 0) (fp_accumulate true 64 tm_fp).
Proof. apply acc_fp. exact tm_fp_ok. Qed.
Example accumulator_ex_orchard : accumulator false 64 tm Node (orchard_accumulate false 64 tm_lv).
Proof. apply acc_orchard. exact tm_lv_ok. Qed.
Example accumulator_ex_sapling : accumulator false 64 tm Node (sapling_accumulate false 64 tm_lv).
Proof. apply acc_sapling. exact tm_lv_ok. Qed.
Example accumulator_ex_f2 : accumulator true 64 (list nat) (fun _ l r => 7 :: (l ++ r))
  (fun set => fst (f2_accumulate toy_update toy_fin true 64 set (snd (f2_accumulate toy_update toy_fin true 64 [] [])))).
Proof. exact (acc_f2 true 64 nat (list nat) [] toy_update toy_fin (fun m => 7 :: m) (fun h => h) toy_contract [[]]). Qed.

(** ** C36 *)
Theorem C36_panics_iff_empty :
  forall A dbg fuel (c : nat -> A -> A -> A) acc set, accumulator dbg fuel A c acc ->
    (N.of_nat (length set) <= 2 ^ 63)%N -> 64 <= fuel ->
    (acc set = Panic <-> set = []) /\ (set <> [] -> exists root, acc set = Ok root).
Proof. intros A. exact (@ProofMerkleFin.accumulator_panics_iff A). Qed.
Print Assumptions C36_panics_iff_empty.

Example C36_ex : fp_accumulate true 64 tm_fp [] = Panic.
Proof. vm_compute. reflexivity. Qed.
(** in release builds [set_size - 1] wraps to 2^64 - 1 and the indexing panics *)
Example C36_ex_release : fp_accumulate false 64 tm_fp [] = Panic.
Proof. apply ProofMerkleAcc.fp_acc_empty. lia. Qed.

(** ** C37 *)
Theorem C37_padding_collision :
  forall A dbg fuel (set : list A) d, set <> [] -> (N.of_nat (length set) <= 2 ^ 63)%N -> 64 <= fuel ->
    (length set = 1 \/ 2 <= length set /\ forall k, length set <> 2 ^ k) ->
    (forall compress, fp_accumulate dbg fuel compress (set ++ [last set d]) = fp_accumulate dbg fuel compress set) /\
    (forall compress, orchard_accumulate dbg fuel compress (set ++ [last set d]) = orchard_accumulate dbg fuel compress set) /\
    (forall compress, sapling_accumulate dbg fuel compress (set ++ [last set d]) = sapling_accumulate dbg fuel compress set).
Proof. exact @ProofMerkleFin.acc_repeat_one. Qed.
Print Assumptions C37_padding_collision.

(** any number of repetitions that fits into the padding; all four variants *)
Theorem C37_padding_collision_any :
  forall A dbg fuel (c : nat -> A -> A -> A) acc set d j, accumulator dbg fuel A c acc ->
    set <> [] -> (N.of_nat (length set) <= 2 ^ 63)%N -> 64 <= fuel -> length set + j <= padded_size (length set) ->
    acc (set ++ repeat (last set d) j) = acc set.
Proof. exact @ProofMerkleFin.accumulator_repeat. Qed.
Print Assumptions C37_padding_collision_any.

(** even with an injective compression function, accumulate is not injective *)
Theorem C37_collision_free_refuted :
  exists compress : list tm -> res tm,
    (forall a b a' b' r, compress [a; b] = Ok r -> compress [a'; b'] = Ok r -> (a, b) = (a', b')) /\
    exists set set' root, set <> set' /\ fp_accumulate false 64 compress set = Ok root /\ fp_accumulate false 64 compress set' = Ok root.
Proof.
  exists tm_fp. split.
  - intros a b a' b' r H H'. cbn in H, H'. congruence.
  - exists [Leaf 1; Leaf 2; Leaf 3], [Leaf 1; Leaf 2; Leaf 3; Leaf 3]. eexists. split; [discriminate|]. split; vm_compute; reflexivity.
Qed.
Print Assumptions C37_collision_free_refuted.

Example C37_ex_sizes : (forall k, 6 <> 2 ^ k) /\ 6 + 2 <= padded_size 6.
Proof. split; [|vm_compute; lia]. intros [|[|[|k]]]; cbn; lia. Qed.

(** ** C38 *)
Theorem C38_same_length_collision :
  forall A dbg fuel, (forall a b : A, {a = b} + {a <> b}) ->
  forall (c : nat -> A -> A -> A) acc set set', accumulator dbg fuel A c acc ->
    (N.of_nat (length set) <= 2 ^ 63)%N -> 64 <= fuel ->
    length set = length set' -> set <> set' -> acc set = acc set' ->
    exists h a b a' b', In (h, a, b) (merkle_nodes c set) /\ In (h, a', b') (merkle_nodes c set') /\
      (a, b) <> (a', b') /\ c h a b = c h a' b'.
Proof. exact @ProofMerkleFin.acc_collision. Qed.
Print Assumptions C38_same_length_collision.

(** addition of numbers collides: [1;2;3] and [2;1;3] *)
Definition add_fp (l : list nat) : res nat := match l with a :: b :: _ => Ok (a + b) | _ => Panic end.
Example C38_ex : fp_accumulate true 64 add_fp [1;2;3] = fp_accumulate true 64 add_fp [2;1;3] /\ [1;2;3] <> [2;1;3] /\
  In (0, 1, 2) (merkle_nodes (fun _ => Nat.add) [1;2;3]) /\ In (0, 2, 1) (merkle_nodes (fun _ => Nat.add) [2;1;3]).
Proof. vm_compute. split; [reflexivity|]. split; [discriminate|]. split; right; left; reflexivity. Qed.

(** ** C39 *)
Theorem C39_path_exists :
  forall A dbg fuel (c : nat -> A -> A -> A) acc set d i, accumulator dbg fuel A c acc ->
    (N.of_nat (length set) <= 2 ^ 63)%N -> 64 <= fuel -> i < length set ->
    exists path, length path = tree_depth (length set) /\ acc set = Ok (path_root c 0 i (nth i set d) path).
Proof. exact @ProofMerkleFin.acc_path. Qed.
Print Assumptions C39_path_exists.

Theorem C39_path_binding :
  forall A dbg fuel, (forall a b : A, {a = b} + {a <> b}) ->
  forall (c : nat -> A -> A -> A) acc set d i v path, accumulator dbg fuel A c acc ->
    (N.of_nat (length set) <= 2 ^ 63)%N -> 64 <= fuel -> i < length set ->
    length path = tree_depth (length set) -> acc set = Ok (path_root c 0 i v path) -> v <> nth i set d ->
    exists h a b a' b', In (h, a, b) (merkle_nodes c set) /\ (a, b) <> (a', b') /\ c h a b = c h a' b'.
Proof. exact @ProofMerkleFin.acc_path_binding. Qed.
Print Assumptions C39_path_binding.

Example C39_ex : orchard_accumulate true 64 tm_lv (map Leaf [1;2;3]) = Ok (path_root Node 0 2 (Leaf 3) [Leaf 3; Node 0 (Leaf 1) (Leaf 2)]) /\ tree_depth 3 = 2.
Proof. vm_compute. split; reflexivity. Qed.
(** with addition, the path [3;2] accepts 4 instead of 3 at index 2 *)
Example C39_ex_binding : fp_accumulate true 64 add_fp [1;2;3] = Ok (path_root (fun _ => Nat.add) 0 2 4 [3; 2]) /\ 4 <> nth 2 [1;2;3] 0.
Proof. vm_compute. split; [reflexivity|discriminate]. Qed.

(** ** C40 *)
Theorem C40_cross_level :
  forall A dbg fuel (c c' : nat -> A -> A -> A) acc acc' set, accumulator dbg fuel A c acc -> accumulator dbg fuel A c' acc' ->
    (forall h a b, c' h a b = c (S h) a b) ->
    3 <= length set -> (N.of_nat (length set) <= 2 ^ 63)%N -> 64 <= fuel ->
    acc' (pairs (c 0) (padded set)) = acc set.
Proof. exact @ProofMerkleFin.acc_up. Qed.
Print Assumptions C40_cross_level.

Theorem C40_untagged_collision_refuted :
  forall A dbg fuel (compress : list A -> res A) (c : A -> A -> A) set,
    (forall a b, compress [a; b] = Ok (c a b)) -> 3 <= length set -> (N.of_nat (length set) <= 2 ^ 63)%N -> 64 <= fuel ->
    fp_accumulate dbg fuel compress (pairs c (padded set)) = fp_accumulate dbg fuel compress set /\
    length (pairs c (padded set)) < length (padded set).
Proof. exact @ProofMerkleFin.fp_cross_level. Qed.
Print Assumptions C40_untagged_collision_refuted.

Theorem C40_digest_collision_refuted :
  forall B H h_new h_update h_finalize_reset (hash : list B -> list B) (absorbed : H -> list B),
    digest_contract h_new h_update h_finalize_reset hash absorbed ->
  forall dbg fuel set, 3 <= length set -> (N.of_nat (length set) <= 2 ^ 63)%N -> 64 <= fuel ->
    fst (f2_accumulate h_update h_finalize_reset dbg fuel (pairs (fun l r => hash (l ++ r)) (padded set)) h_new) =
    fst (f2_accumulate h_update h_finalize_reset dbg fuel set h_new).
Proof. exact @ProofMerkleFin.f2_cross_level. Qed.
Print Assumptions C40_digest_collision_refuted.

(** the tagged variants do not have this collision when the tags are visible in the result *)
Theorem C40_tagged_levels_differ :
  exists (compress : nat -> tm -> tm -> res tm) (c : nat -> tm -> tm -> tm),
    (forall h a b, compress h a b = Ok (c h a b)) /\
    forall dbg, orchard_accumulate dbg 64 compress (pairs (c 0) (padded [Leaf 1; Leaf 2; Leaf 3])) <>
                orchard_accumulate dbg 64 compress [Leaf 1; Leaf 2; Leaf 3].
Proof. exists tm_lv, Node. split; [exact tm_lv_ok|]. intros [|]; vm_compute; discriminate. Qed.
Print Assumptions C40_tagged_levels_differ.

Example C40_ex : fp_accumulate true 64 tm_fp [Node 0 (Leaf 1) (Leaf 2); Node 0 (Leaf 3) (Leaf 3)] = fp_accumulate true 64 tm_fp [Leaf 1; Leaf 2; Leaf 3].
Proof. vm_compute. reflexivity. Qed.

(** ** C41: [compress_claim] (in SpecMerkleVariants) is the whole statement for one hash *)
Theorem C41_poseidon2_compress :
  forall F (Fo : FOps F), is_field Fo ->
  forall dbg t d rf rp (diag : list F) (mi rc : list (list F)) P,
    p2_new dbg t d rf rp diag mi rc = Ok P -> (N.of_nat rf + N.of_nat rp < usize_mod)%N ->
    compress_claim f0 t 3 [f0] (sbox_degree d /\ p2_data_ok t rf rp diag rc) dbg (p2_compress dbg P) (p2_ref t d rf rp diag rc).
Proof. exact @ProofMerkleHash.p2_compress_claim. Qed.
Print Assumptions C41_poseidon2_compress.

Theorem C41_poseidon_compress :
  forall F (Fo : FOps F), is_field Fo ->
  forall dbg t d rf rp (mds rc : list (list F)) P,
    ps_new dbg t d rf rp mds rc = Ok P -> (N.of_nat rf + N.of_nat rp < usize_mod)%N ->
    compress_claim f0 t 3 [f0] (dims t t mds /\ forall r, r < rf + rp -> t <= length (nth r rc [])) dbg
      (ps_compress dbg P) (ps_ref t d rf rp (entry mds) rc).
Proof. exact @ProofMerkleHash.ps_compress_claim. Qed.
Print Assumptions C41_poseidon_compress.

Theorem C41_gmimc_compress :
  forall F (Fo : FOps F), is_field Fo ->
  forall dbg rng t d rounds (P : GmimcParams F), gm_new rng t d rounds = Ok P ->
    compress_claim f0 t 3 [f0] (1 <= rounds) dbg (gm_compress dbg P) (gm_ref t d rounds (map rng (seq 0 rounds))).
Proof. exact @ProofMerkleHash.gm_compress_claim. Qed.
Print Assumptions C41_gmimc_compress.

Theorem C41_neptune_compress :
  forall F (Fo : FOps F) p, is_prime_field Fo p ->
  forall dbg fuel rng t d rf rp (P : NeptuneParams F),
    np_new dbg fuel rng t d rf rp = Ok P -> (N.of_nat rf + N.of_nat rp < usize_mod)%N ->
    compress_claim f0 t 4 [f0; f0] True dbg (np_compress dbg P)
      (np_ref t d rf rp (np_abc P) (entry (np_m_e P)) (np_int_matrix (fun i => fadd (nth i (np_mu P) f0) f1)) (np_rc P)).
Proof. exact @ProofMerkleHash.np_compress_claim. Qed.
Print Assumptions C41_neptune_compress.

(** width 3 works, width 4 panics *)
Definition m41_3 dbg := @p2_new F13 dbg 3 5 2 1 (l13 [1;1;2]%Z) [] (map l13 [[1;2;3];[4;0;0];[5;6;7]]%Z).
Definition m41_4 dbg := @p2_new F13 dbg 4 7 2 2 (l13 [1;2;3;6]%Z) [] (map l13 [[1;2;3;4];[4];[7;1];[5;6;7;8]]%Z).
Example C41_ex_3 : (P <- m41_3 true ;; r <- @p2_permutation _ F13_ops true P (l13 [1;2;0]%Z) ;; Ok (map (@f_to_Z _ F13_ops) r)) = Ok [7;8;12]%Z.
Proof. vm_compute. reflexivity. Qed.
Example C41_ex_3_compress : (P <- m41_3 true ;; r <- @p2_compress _ F13_ops true P (l13 [1;2]%Z) ;; Ok (@f_to_Z _ F13_ops r)) = Ok 7%Z.
Proof. vm_compute. reflexivity. Qed.
Example C41_ex_3_acc : (P <- m41_3 true ;; r <- fp_accumulate true 64 (@p2_compress _ F13_ops true P) (l13 [1;2;3]%Z) ;; Ok (@f_to_Z _ F13_ops r)) = Ok 7%Z.
Proof. vm_compute. reflexivity. Qed.
Example C41_ex_4 : (P <- m41_4 true ;; fp_accumulate true 64 (@p2_compress _ F13_ops true P) (l13 [1;2;3]%Z)) = Panic.
Proof. vm_compute. reflexivity. Qed.

(** ** C42 *)
Theorem C42_padded_size_least :
  forall n, 2 <= padded_size n /\ n <= padded_size n /\ (exists k, padded_size n = 2 ^ k) /\
    forall k, 2 <= 2 ^ k -> n <= 2 ^ k -> padded_size n <= 2 ^ k.
Proof. exact ProofMerkleFin.padded_size_least. Qed.
Print Assumptions C42_padded_size_least.

Theorem C42_size_search :
  forall n dbg fuel, (N.of_nat n <= 2 ^ 63)%N -> 64 <= fuel ->
    fp_round_up_pow_n dbg fuel (N.of_nat n) 2 = Ok (N.of_nat (padded_size n)) /\
    f2_round_up_pow_n dbg fuel (N.of_nat n) 2 = Ok (N.of_nat (padded_size n)) /\
    orchard_round_up_pow_n dbg fuel (N.of_nat n) 2 = Ok (N.of_nat (padded_size n)) /\
    sapling_round_up_pow_n dbg fuel (N.of_nat n) 2 = Ok (N.of_nat (padded_size n)).
Proof. exact ProofMerkleFin.size_search. Qed.
Print Assumptions C42_size_search.

(** the number of doublings is exactly the depth *)
Theorem C42_doublings :
  forall n dbg, (N.of_nat n <= 2 ^ 63)%N ->
    fp_round_up_pow_n dbg (tree_depth n) (N.of_nat n) 2 = Ok (N.of_nat (padded_size n)) /\
    (forall fuel, fuel < tree_depth n -> fp_round_up_pow_n dbg fuel (N.of_nat n) 2 = Fuel).
Proof. exact ProofMerkleFin.size_search_steps. Qed.
Print Assumptions C42_doublings.

(** beyond 2^63 the search overflows (debug) or never ends (release); no slice of a non-zero-sized type is that long *)
Theorem C42_overflow :
  forall n, (2 ^ 63 < n)%N -> (n < usize_mod)%N ->
    (forall fuel, fp_round_up_pow_n false fuel n 2 = Fuel) /\ (forall fuel, 64 <= fuel -> fp_round_up_pow_n true fuel n 2 = Panic).
Proof. exact ProofMerkle.round_up_big. Qed.
Print Assumptions C42_overflow.

(** the messages hashed by the digest tree, recorded by an instrumented hasher, are the nodes of the tree,
    padded size - 1 of them *)
Theorem C42_digest_compressions :
  forall B H h_new h_update h_finalize_reset (hash : list B -> list B) (absorbed : H -> list B),
    digest_contract h_new h_update h_finalize_reset hash absorbed ->
  forall dbg fuel set, set <> [] -> (N.of_nat (length set) <= 2 ^ 63)%N -> 64 <= fuel ->
    exists root h log, merkle_root (fun _ l r => hash (l ++ r)) set = Some root /\
      f2_accumulate (fun s x => (h_update (fst s) x, snd s))
        (fun s => let '(d, h) := h_finalize_reset (fst s) in (d, (h, snd s ++ [absorbed (fst s)])))
        dbg fuel set (h_new, []) = (Ok root, (h, log)) /\
      Permutation log (map (fun '(_, l, r) => l ++ r) (merkle_nodes (fun _ l r => hash (l ++ r)) set)) /\
      length log = padded_size (length set) - 1.
Proof. exact @ProofMerkleFin.f2_log. Qed.
Print Assumptions C42_digest_compressions.

(** the other variants: leaves of weight 0, every compression adds one to the weights of its inputs *)
Theorem C42_compressions :
  forall dbg fuel acc n, accumulator dbg fuel nat (fun _ a b => S (a + b)) acc -> 1 <= n -> (N.of_nat n <= 2 ^ 63)%N -> 64 <= fuel ->
    acc (repeat 0 n) = Ok (padded_size n - 1).
Proof. exact ProofMerkleFin.acc_weight. Qed.
Print Assumptions C42_compressions.

Example C42_ex : map padded_size [0;1;2;3;4;5;8;9;1000] = [2;2;2;4;4;8;8;16;1024].
Proof. vm_compute. reflexivity. Qed.
Example C42_ex_63 dbg : fp_round_up_pow_n dbg 64 (2 ^ 63) 2 = Ok (2 ^ 63)%N /\ fp_round_up_pow_n true 64 (2 ^ 63 + 1) 2 = Panic.
Proof. destruct dbg; vm_compute; split; reflexivity. Qed.

(** ** C20, Merkle part: any compression function (also a panicking one), any set including the empty one *)
Theorem C20_merkle_profiles :
  forall A fuel (set : list A), (N.of_nat (length set) <= 2 ^ 63)%N -> 64 <= fuel ->
    (forall compress, fp_accumulate true fuel compress set = fp_accumulate false fuel compress set) /\
    (forall compress, orchard_accumulate true fuel compress set = orchard_accumulate false fuel compress set) /\
    (forall compress, sapling_accumulate true fuel compress set = sapling_accumulate false fuel compress set).
Proof. exact @ProofMerkleFin.acc_profiles. Qed.
Print Assumptions C20_merkle_profiles.

Theorem C20_merkle_digest_profiles :
  forall B H h_new h_update h_finalize_reset (hash : list B -> list B) (absorbed : H -> list B),
    digest_contract h_new h_update h_finalize_reset hash absorbed ->
  forall fuel set h, absorbed h = [] -> (N.of_nat (length set) <= 2 ^ 63)%N -> 64 <= fuel ->
    fst (f2_accumulate h_update h_finalize_reset true fuel set h) = fst (f2_accumulate h_update h_finalize_reset false fuel set h).
Proof. exact @ProofMerkleFin.f2_profiles. Qed.
Print Assumptions C20_merkle_digest_profiles.

Example C20_merkle_ex : fp_accumulate true 64 tm_fp [Leaf 1; Leaf 2; Leaf 3] = fp_accumulate false 64 tm_fp [Leaf 1; Leaf 2; Leaf 3].
Proof. vm_compute. reflexivity. Qed.
