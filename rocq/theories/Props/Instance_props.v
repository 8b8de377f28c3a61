(** C62: the shipped field parameters. *)
From Coq Require Import String ZArith List Bool Lia Znumtheory.
From Verif Require Import Model.Uint Model.Fp Model.FieldInstances Spec.Uint_spec Spec.Fp_spec
  Proofs.Root_vesta Proofs.Root_baby_bear Proofs.Root_bls12 Proofs.Root_bn256 Proofs.Root_goldilocks Proofs.Root_pallas
  Proofs.Instance_lemmas.
Import ListNotations.
Open Scope Z_scope.

(** Every declared modulus parses and is prime, and every nonzero element of its field is
    a power of the declared generator. *)
Theorem c62_parameters : Forall (fun c => exists p G,
  MODULUS c = Some p /\ GENERATOR c = Some G /\ limbs (p_limbs c) p /\ prime (val p) /\ val p <> 2 /\ element p G /\
  forall x, element p x -> val (into_bigint p x) <> 0 ->
    exists e, limbs (p_limbs c) e /\ val e < val p - 1 /\ pow p G (bit_be_trimmed_iter e) = x) instances.
Proof.
  unfold instances. repeat apply Forall_cons; [..|apply Forall_nil].
  1: destruct (instance_ok VestaParam _ _ vesta_root ltac:(cbn; lia) ltac:(reflexivity) ltac:(vm_compute; reflexivity) ltac:(vm_compute; reflexivity)) as (p & G & H1 & H2 & H3 & H4 & H5 & H6 & _ & H7).
  2: destruct (instance_ok BabyBearParam _ _ baby_bear_root ltac:(cbn; lia) ltac:(reflexivity) ltac:(vm_compute; reflexivity) ltac:(vm_compute; reflexivity)) as (p & G & H1 & H2 & H3 & H4 & H5 & H6 & _ & H7).
  3: destruct (instance_ok BLS12Param _ _ bls12_root ltac:(cbn; lia) ltac:(reflexivity) ltac:(vm_compute; reflexivity) ltac:(vm_compute; reflexivity)) as (p & G & H1 & H2 & H3 & H4 & H5 & H6 & _ & H7).
  4: destruct (instance_ok BN256Param _ _ bn256_root ltac:(cbn; lia) ltac:(reflexivity) ltac:(vm_compute; reflexivity) ltac:(vm_compute; reflexivity)) as (p & G & H1 & H2 & H3 & H4 & H5 & H6 & _ & H7).
  5: destruct (instance_ok GoldiLocksParam _ _ goldilocks_root ltac:(cbn; lia) ltac:(reflexivity) ltac:(vm_compute; reflexivity) ltac:(vm_compute; reflexivity)) as (p & G & H1 & H2 & H3 & H4 & H5 & H6 & _ & H7).
  6: destruct (instance_ok PallasParam _ _ pallas_root ltac:(cbn; lia) ltac:(reflexivity) ltac:(vm_compute; reflexivity) ltac:(vm_compute; reflexivity)) as (p & G & H1 & H2 & H3 & H4 & H5 & H6 & _ & H7).
  all: exists p, G; do 4 (split; [assumption|]); split; [rewrite H4; discriminate|]; split; assumption.
Qed.
Print Assumptions c62_parameters.

Example c62_baby_bear : MODULUS BabyBearParam = Some [2013265921] /\
  GENERATOR BabyBearParam = Some (from_bigint [2013265921] [31]) /\
  into_bigint [2013265921] (from_bigint [2013265921] [31]) = [31].
Proof. split; [|split]; vm_compute; reflexivity. Qed.
