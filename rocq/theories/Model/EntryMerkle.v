(** The deployed examples/merkle-proofs as a table of functions for the entry point of
    Model/Entry.v. *)
From Verif.Base Require Import Prelude Bytes Keccak.
From Coq Require Import String List.
From Verif.Model Require Import Introspection Router Entry.
From Verif.Model Require SolAbi Merkle.
Import SolAbi.
#[global] Open Scope Z_scope.
Local Open Scope string_scope.
Local Open Scope list_scope.
Local Open Scope Z_scope.

(** examples/merkle-proofs/src/lib.rs:13-47 *)
Definition revert_verifier (e : Merkle.error) : list Z :=
  match e with
  | Merkle.InvalidProofLength => sol_error "MerkleProofInvalidMultiProofLength" []
  | Merkle.InvalidRootChild => sol_error "MerkleProofInvalidRootChild" []
  | Merkle.InvalidTotalHashes => sol_error "MerkleProofInvalidTotalHashes" []
  | Merkle.NoLeaves => sol_error "MerkleProofNoLeaves" []
  end.
(** examples/merkle-proofs/src/lib.rs:49-78; the contract has no state. *)
Definition ExampleVerifier : contract unit Merkle.error :=
  mkContract _ _ Pub.VerifierContract
    [("VerifierContract", "verify", fun args _ =>
       match args with
       | [Words proof; Word root; Word leaf] =>
           ret [Word (of_bool (Merkle.verify Merkle.keccak_hasher (map word proof) (word root) (word leaf)))]
       | _ => panic
       end);
     ("VerifierContract", "verify_multi_proof", fun args _ =>
       match args with
       | [Words proof; Words flags; Word root; Words leaves] =>
           b <~ lift_res (Merkle.verify_multi_proof Merkle.keccak_hasher (map word proof) (map (fun f => f =? 1) flags) (word root) (map word leaves)) ;;
           ret [Word (of_bool b)]
       | _ => panic
       end)]
    revert_verifier.
