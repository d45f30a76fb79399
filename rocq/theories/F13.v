(** * F13: the field with 13 elements, used for concrete examples beside the theorems *)
From Coq Require Import Uint63.
From Verif Require Import Base Field Fp ProofPoseidon2Lin.

Definition P13 : mparams :=
  (MkParams 1 [13] [536870899] 454275387 [6] [10])%uint63.
Lemma P13_ok : params_ok P13 = true.
Proof. vm_compute. reflexivity. Qed.
Definition F13 : Type := Fp P13.
Definition F13_ops : FOps F13 := fp_ops P13 P13_ok.
#[global] Existing Instance F13_ops.
Lemma prime_13 : prime 13.
Proof.
  apply small_prime; [lia|]. intros k Hk. assert (k = 2 \/ k = 3 \/ k = 4)%Z as [->|[->| ->]] by lia; discriminate.
Qed.
Lemma F13_field : is_prime_field F13_ops 13.
Proof.
  change 13%Z with (pz P13). apply fp_is_prime_field; [|vm_compute; reflexivity].
  change (pz P13) with 13%Z. exact prime_13.
Qed.
Definition F13_is_field : is_field F13_ops := prime_field_is_field F13_field.

(** numerals and lists of numerals as elements *)
Definition e13 (z : Z) : F13 := @f_of_Z _ F13_ops z.
Definition l13 (l : list Z) : list F13 := map e13 l.
Definition out13 (r : res (list F13)) : res (list Z) :=
  bind r (fun l => Ok (map (@f_to_Z _ F13_ops) l)).
