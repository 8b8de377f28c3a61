(** Merkle trees and paths, for the properties of Merkle proofs. *)
From Verif.Base Require Import Prelude.
From Verif.Model Require Merkle.
From stdpp Require Import list.
Import Merkle.
#[global] Open Scope Z_scope.

(** Binary trees of any shape over already hashed leaves. *)
Inductive tree := Leaf (h : bytes) | Node (l r : tree).
(** The sorted pair: smaller string first. *)
Definition sorted_pair (a b : bytes) : list bytes := if blt b a then [b; a] else [a; b].
Fixpoint root (H : list bytes -> bytes) (t : tree) : bytes :=
  match t with
  | Leaf h => h
  | Node l r => H (sorted_pair (root H l) (root H r))
  end.
(** Paths from the root: [false] is left. *)
Fixpoint subtree (t : tree) (p : list bool) : option tree :=
  match p, t with
  | [], _ => Some t
  | b :: p', Node l r => subtree (if b : bool then r else l) p'
  | _ :: _, Leaf _ => None
  end.
(** The sibling hashes along a path, topmost first. *)
Fixpoint siblings (H : list bytes -> bytes) (t : tree) (p : list bool) : list bytes :=
  match p, t with
  | b :: p', Node l r => root H (if b : bool then l else r) :: siblings H (if b then r else l) p'
  | _, _ => []
  end.
(** What is hashed when building the tree, and when checking a proof. *)
Fixpoint tree_inputs (H : list bytes -> bytes) (t : tree) : list (list bytes) :=
  match t with
  | Leaf _ => []
  | Node l r => sorted_pair (root H l) (root H r) :: tree_inputs H l ++ tree_inputs H r
  end.
Fixpoint proof_inputs (H : list bytes -> bytes) (proof : list bytes) (leaf : bytes) : list (list bytes) :=
  match proof with
  | [] => []
  | s :: proof' => sorted_pair leaf s :: proof_inputs H proof' (H (sorted_pair leaf s))
  end.
Fixpoint tree_leaves (t : tree) : list bytes :=
  match t with Leaf h => [h] | Node l r => tree_leaves l ++ tree_leaves r end.
(** Trees that differ in the order of siblings only. *)
Inductive mirrored : tree -> tree -> Prop :=
| mir_leaf h : mirrored (Leaf h) (Leaf h)
| mir_node l r l' r' : mirrored l l' -> mirrored r r' -> mirrored (Node l r) (Node l' r')
| mir_swap l r l' r' : mirrored l l' -> mirrored r r' -> mirrored (Node l r) (Node r' l').
Definition count (b : bool) (l : list bool) : nat := length (filter (fun x => x = b) l).
(** The well-formed inputs: as many flags as hashes to compute, and either the trivial tree
    or at least one leaf and exactly one [false] flag per proof element. *)
Definition well_formed (proof : list bytes) (flags : list bool) (leaves : list bytes) : Prop :=
  (length leaves + length proof = length flags + 1)%nat /\
  (flags = [] \/ leaves <> [] /\ count false flags = length proof).
