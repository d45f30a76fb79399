(** * SpecMerkleVariants: the four accumulate functions seen as one family

    [accumulator dbg fuel A c acc]: [acc] is one of the four modelled accumulate functions, used with a
    compression that never panics and whose value on two nodes of depth h is [c h] *)
From Verif Require Import Base ModelMerkle SpecMerkle.

Inductive accumulator (dbg : bool) (fuel : nat) : forall A : Type, (nat -> A -> A -> A) -> (list A -> res A) -> Prop :=
| acc_fp : forall A (c : A -> A -> A) compress, (forall a b, compress [a; b] = Ok (c a b)) ->
    accumulator dbg fuel A (fun _ => c) (fp_accumulate dbg fuel compress)
| acc_orchard : forall A (c : nat -> A -> A -> A) compress, (forall h a b, compress h a b = Ok (c h a b)) ->
    accumulator dbg fuel A c (orchard_accumulate dbg fuel compress)
| acc_sapling : forall A (c : nat -> A -> A -> A) compress, (forall h a b, compress h a b = Ok (c h a b)) ->
    accumulator dbg fuel A c (sapling_accumulate dbg fuel compress)
| acc_f2 : forall B H new update finalize_reset (hash : list B -> list B) (absorbed : H -> list B),
    digest_contract new update finalize_reset hash absorbed ->
    forall history, accumulator dbg fuel (list B) (fun _ l r => hash (l ++ r))
      (fun set => fst (f2_accumulate update finalize_reset dbg fuel set
         (fold_left (fun h s => snd (f2_accumulate update finalize_reset dbg fuel s h)) history (f2_new new)))).

(** what C41 says about one hash: [w] is the width, [z] the zeros appended to the two inputs *)
Definition compress_claim {F} (f0 : F) (t w : nat) (z : list F) (wf : Prop) (dbg : bool) (compress : list F -> res F) (ref : list F -> list F) : Prop :=
  (forall input, length input < 2 -> compress input = Panic) /\
  (t <> w -> forall input, compress input = Panic) /\
  (t = w -> wf -> forall l r rest, compress (l :: r :: rest) = Ok (nth 0 (ref (l :: r :: z)) f0)) /\
  (forall fuel set, 64 <= fuel -> (N.of_nat (length set) <= 2 ^ 63)%N ->
     (t <> w -> fp_accumulate dbg fuel compress set = Panic) /\
     (t = w -> wf -> set <> [] -> exists root,
        merkle_root (fun _ l r => nth 0 (ref (l :: r :: z)) f0) set = Some root /\ fp_accumulate dbg fuel compress set = Ok root)).
