(** * Exactly which sets share a Merkle root: C72 *)
From Verif Require Import Base ModelMerkle SpecMerkle SpecMerkleVariants SpecBinding.
From Verif Require ProofMerkleBind.
Local Open Scope nat_scope.

(** ** C72: two sets with the same root agree up to padding, or two different nodes (level and inputs) collide *)
Theorem C72_binding :
  forall A dbg fuel, (forall a b : A, {a = b} + {a <> b}) ->
  forall (c : nat -> A -> A -> A) acc s s', accumulator dbg fuel A c acc -> s <> [] -> s' <> [] ->
    (N.of_nat (length s) <= 2 ^ 63)%N -> (N.of_nat (length s') <= 2 ^ 63)%N -> 64 <= fuel ->
    (same_up_to_padding s s' -> acc s = acc s') /\
    (acc s = acc s' -> same_up_to_padding s s' \/
       exists h a b h' a' b', In (h, a, b) (merkle_nodes c s) /\ In (h', a', b') (merkle_nodes c s') /\ (h, a, b) <> (h', a', b') /\ c h a b = c h' a' b').
Proof. exact @ProofMerkleBind.tagged_binding. Qed.
Print Assumptions C72_binding.

Theorem C72_binding_injective :
  forall A dbg fuel (c : nat -> A -> A -> A) acc s s', (forall a b : A, {a = b} + {a <> b}) ->
    accumulator dbg fuel A c acc -> s <> [] -> s' <> [] ->
    (N.of_nat (length s) <= 2 ^ 63)%N -> (N.of_nat (length s') <= 2 ^ 63)%N -> 64 <= fuel ->
    (forall h a b h' a' b', c h a b = c h' a' b' -> (h, a, b) = (h', a', b')) -> (acc s = acc s' <-> same_up_to_padding s s').
Proof. exact @ProofMerkleBind.tagged_injective. Qed.
Print Assumptions C72_binding_injective.

(** without level tags (merkle_tree_fp, merkle_tree_f2) there is one more reason: a row of one tree is the other set *)
Theorem C72_binding_untagged :
  forall A dbg fuel, (forall a b : A, {a = b} + {a <> b}) ->
  forall (c : A -> A -> A) acc s s', accumulator dbg fuel A (fun _ => c) acc -> s <> [] -> s' <> [] ->
    (N.of_nat (length s) <= 2 ^ 63)%N -> (N.of_nat (length s') <= 2 ^ 63)%N -> 64 <= fuel ->
    (same_up_to_padding s s' \/ row_of c s s' \/ row_of c s' s -> acc s = acc s') /\
    (acc s = acc s' -> same_up_to_padding s s' \/ row_of c s s' \/ row_of c s' s \/
       exists h a b h' a' b', In (h, a, b) (merkle_nodes (fun _ => c) s) /\ In (h', a', b') (merkle_nodes (fun _ => c) s') /\ (a, b) <> (a', b') /\ c a b = c a' b').
Proof. exact @ProofMerkleBind.untagged_binding. Qed.
Print Assumptions C72_binding_untagged.

Theorem C72_binding_untagged_injective :
  forall A dbg fuel (c : A -> A -> A) acc s s', (forall a b : A, {a = b} + {a <> b}) ->
    accumulator dbg fuel A (fun _ => c) acc -> s <> [] -> s' <> [] ->
    (N.of_nat (length s) <= 2 ^ 63)%N -> (N.of_nat (length s') <= 2 ^ 63)%N -> 64 <= fuel ->
    (forall a b a' b', c a b = c a' b' -> (a, b) = (a', b')) -> (acc s = acc s' <-> same_up_to_padding s s' \/ row_of c s s' \/ row_of c s' s).
Proof. exact @ProofMerkleBind.untagged_injective. Qed.
Print Assumptions C72_binding_untagged_injective.

(** digests: the nodes have the length of the output, so a collision of nodes is a collision of two hashed messages *)
Theorem C72_binding_digest :
  forall B (w : nat) (hash : list B -> list B), (forall m, length (hash m) = w) ->
  forall (H : Type) (h_new : H) h_update h_finalize_reset absorbed, digest_contract h_new h_update h_finalize_reset hash absorbed ->
    (forall a b : B, {a = b} + {a <> b}) ->
  forall dbg fuel s s', s <> [] -> s' <> [] -> Forall (fun x => length x = w) s -> Forall (fun x => length x = w) s' ->
    (N.of_nat (length s) <= 2 ^ 63)%N -> (N.of_nat (length s') <= 2 ^ 63)%N -> 64 <= fuel ->
    fst (f2_accumulate h_update h_finalize_reset dbg fuel s h_new) = fst (f2_accumulate h_update h_finalize_reset dbg fuel s' h_new) ->
    same_up_to_padding s s' \/ row_of (fun l r => hash (l ++ r)) s s' \/ row_of (fun l r => hash (l ++ r)) s' s \/
    exists m m', In m (map (fun '(_, l, r) => l ++ r) (merkle_nodes (fun _ l r => hash (l ++ r)) s)) /\
      In m' (map (fun '(_, l, r) => l ++ r) (merkle_nodes (fun _ l r => hash (l ++ r)) s')) /\ m <> m' /\ hash m = hash m'.
Proof. exact @ProofMerkleBind.digest_binding. Qed.
Print Assumptions C72_binding_digest.

(** free compression: it records the tree *)
Inductive tree : Type := Leaf (n : nat) | Node (h : nat) (l r : tree).
Definition tree_dec : forall a b : tree, {a = b} + {a <> b}.
Proof. decide equality; apply Nat.eq_dec. Defined.
Definition free_lv (h : nat) (a b : tree) : res tree := Ok (Node h a b).
Definition free_fp (l : list tree) : res tree := match l with a :: b :: _ => Ok (Node 0 a b) | _ => Panic end.

Example C72_ex_injective :
  accumulator true 64 tree Node (orchard_accumulate true 64 free_lv) /\
  (forall h a b h' a' b', Node h a b = Node h' a' b' -> (h, a, b) = (h', a', b')) /\
  accumulator true 64 tree (fun _ => Node 0) (fp_accumulate true 64 free_fp) /\
  (forall a b a' b', Node 0 a b = Node 0 a' b' -> (a, b) = (a', b')).
Proof.
  split; [apply acc_orchard; reflexivity|]. split; [congruence|]. split; [apply acc_fp; reflexivity|]. congruence.
Qed.
(** three elements and six elements of which the last three are equal: padding; four elements and the two nodes above them: a row *)
Example C72_ex_padding : same_up_to_padding [1; 2; 3; 4; 5] [1; 2; 3; 4; 5; 5; 5] /\ ~ same_up_to_padding [1; 2] [1; 2; 2].
Proof.
  split; [exists [1; 2; 3; 4; 5], 0, 2; split; [vm_compute; lia|left; split; reflexivity]|].
  intros [l [d [j [H [[<- E]|[<- E]]]]]].
  - apply (f_equal (@length nat)) in E. rewrite app_length, repeat_length in E. vm_compute in H. cbn in E. assert (j = 1) by lia. subst j. lia.
  - apply (f_equal (@length nat)) in E. rewrite app_length in E. cbn in E. lia.
Qed.
Example C72_ex_row : row_of (Node 0) (map Leaf [1; 2; 3]) [Node 0 (Leaf 1) (Leaf 2); Node 0 (Leaf 3) (Leaf 3)].
Proof. exists 1. repeat split. lia. Qed.

(** a digest with outputs of length 1: the sum; [1;2] and [2;1] are different messages with equal hash *)
Example C72_ex_digest :
  let hash := fun m => [fold_right Nat.add 0 m] in
  (forall m, length (hash m) = 1) /\ digest_contract [] (fun h x => h ++ x) (fun h => (hash h, [])) hash (fun h => h) /\
  fst (f2_accumulate (fun h x => h ++ x) (fun h => (hash h, [])) true 64 [[1]; [2]] []) =
  fst (f2_accumulate (fun h x => h ++ x) (fun h => (hash h, [])) true 64 [[2]; [1]] []).
Proof. cbv zeta. split; [reflexivity|]. split; [constructor; reflexivity|]. vm_compute. reflexivity. Qed.
