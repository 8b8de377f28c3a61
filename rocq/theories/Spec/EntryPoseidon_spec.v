(** What a caller of the Poseidon example sends and gets back. *)
From Verif.Base Require Import Prelude Bytes.
From Coq Require Import String List.
From Verif.Spec Require Import Router_spec PoseidonInt_spec.
From Verif.Model Require PoseidonInstances.
Import ListNotations.
#[global] Open Scope Z_scope.
Local Open Scope list_scope.
Local Open Scope Z_scope.

(** Selector and two words. *)
Definition question (a b : Z) : list Z := be_bytes 4 (sig_selector "hash(uint256[2])") ++ word a ++ word b.
(** Poseidon2 over the integers modulo the prime of BN254 (Spec/PoseidonInt_spec.v). *)
Definition digest (a b : Z) : Z := hd 0 (hash_of PoseidonInstances.BN256Params [a; b] 1).
Definition prime : Z := modulus_of PoseidonInstances.BN256Params.
