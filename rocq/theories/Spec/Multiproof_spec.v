(** Complete Merkle trees and their multi proofs, as made by OpenZeppelin's merkle-tree
    library (https://github.com/OpenZeppelin/merkle-tree), which merkle.rs refers to. *)
From Verif.Base Require Import Prelude.
From Verif.Model Require Merkle.
From Verif.Spec Require Import Merkle_spec.
From stdpp Require Import list.
Import Merkle.
#[global] Open Scope nat_scope.

(** A complete tree with [n] leaves, layer by layer: node 0 is the root, the children of
    node i are the nodes 2i+1 and 2i+2, and the leaves are the nodes n-1 to 2n-2. *)
Definition complete (H : list bytes -> bytes) (n : nat) (node : nat -> bytes) : Prop :=
  0 < n /\ forall i, i < n - 1 -> node i = H (sorted_pair (node (2 * i + 1)) (node (2 * i + 2))).
Definition is_leaf (n i : nat) : Prop := n - 1 <= i <= 2 * n - 2.

Definition parent (i : nat) : nat := (i - 1) / 2.
Definition sibling (i : nat) : nat := if Nat.odd i then i + 1 else i - 1.

(** From right to left in the deepest layer, then in the one above. *)
Fixpoint right_to_left (l : list nat) : Prop :=
  match l with
  | i :: ((j :: _) as l') => j < i /\ right_to_left l'
  | _ => True
  end.

(** Climb from the deepest node of the queue: together with its sibling if that is known
    too, otherwise with the sibling as a proof element. *)
Fixpoint climb (fuel : nat) (node : nat -> bytes) (queue : list nat) : list bytes * list bool :=
  match fuel, queue with
  | S fuel', j :: rest =>
      if Nat.eqb j 0 then ([], []) else
      match rest with
      | s :: rest' =>
          if Nat.eqb s (sibling j) then
            let '(proof, flags) := climb fuel' node (rest' ++ [parent j]) in (proof, true :: flags)
          else let '(proof, flags) := climb fuel' node (rest ++ [parent j]) in (node (sibling j) :: proof, false :: flags)
      | [] => let '(proof, flags) := climb fuel' node [parent j] in (node (sibling j) :: proof, false :: flags)
      end
  | _, _ => ([], [])
  end.
Definition multi_proof (n : nat) (node : nat -> bytes) (leaves : list nat) : list bytes * list bool :=
  climb (2 * n) node leaves.
