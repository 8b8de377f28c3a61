(** Merkle proofs as people compute them, over numbers: a node is the hash of its two children,
    the smaller one first. *)
From Verif.Base Require Import Prelude Bytes Keccak.
From Coq Require Import String List.
From Verif.Model Require SolAbi.
From Verif.Spec Require Import Router_spec Entry_spec.
Import SolAbi.
#[global] Open Scope Z_scope.
Local Open Scope string_scope.
Local Open Scope list_scope.
Local Open Scope Z_scope.

Definition parent (a b : Z) : Z := keccak256 (word (Z.min a b) ++ word (Z.max a b)).
(** From a leaf up along the proof. *)
Definition climb (leaf : Z) (proof : list Z) : Z := fold_left parent proof leaf.

(** ** Trees of any shape *)
Inductive mtree := MLeaf (x : Z) | MNode (l r : mtree).
Fixpoint top (t : mtree) : Z := match t with MLeaf x => x | MNode l r => parent (top l) (top r) end.
Fixpoint leaves_of (t : mtree) : list Z := match t with MLeaf x => [x] | MNode l r => leaves_of l ++ leaves_of r end.
(** The subtree at the end of a path from the root ([false] is left), and the roots of the
    subtrees passed by, the lowest first. *)
Fixpoint part_at (t : mtree) (p : list bool) : option mtree :=
  match p, t with
  | [], _ => Some t
  | b :: p', MNode l r => part_at (if b : bool then r else l) p'
  | _ :: _, MLeaf _ => None
  end.
Fixpoint beside (t : mtree) (p : list bool) : list Z :=
  match p, t with
  | b :: p', MNode l r => beside (if b : bool then r else l) p' ++ [top (if b then l else r)]
  | _, _ => []
  end.
(** The pairs hashed when building the tree and when checking a proof. *)
Definition pair_of (a b : Z) : Z * Z := (Z.min a b, Z.max a b).
Fixpoint tree_pairs (t : mtree) : list (Z * Z) :=
  match t with MLeaf _ => [] | MNode l r => pair_of (top l) (top r) :: tree_pairs l ++ tree_pairs r end.
Fixpoint proof_pairs (leaf : Z) (proof : list Z) {struct proof} : list (Z * Z) :=
  match proof with [] => [] | s :: proof' => pair_of leaf s :: proof_pairs (parent leaf s) proof' end.

(** The string hashed for a pair. *)
Definition join (p : Z * Z) : list Z := word (fst p) ++ word (snd p).
(** Two different strings of a list with the same hash. *)
Definition collide (l : list (list Z)) : Prop := exists x y, In x l /\ In y l /\ x <> y /\ keccak256 x = keccak256 y.

(** ** Multi proofs: a queue of nodes; a flag says whether the first node's sibling is the next
    in the queue or the next of the proof. *)
Fixpoint rebuild (queue proof : list Z) (flags : list bool) {struct flags} : Z :=
  match flags, queue, proof with
  | true :: flags', a :: b :: queue', _ => rebuild (queue' ++ [parent a b]) proof flags'
  | false :: flags', a :: queue', s :: proof' => rebuild (queue' ++ [parent a s]) proof' flags'
  | _, _, _ => hd 0 queue
  end.
Fixpoint multi_pairs (queue proof : list Z) (flags : list bool) {struct flags} : list (Z * Z) :=
  match flags, queue, proof with
  | true :: flags', a :: b :: queue', _ => pair_of a b :: multi_pairs (queue' ++ [parent a b]) proof flags'
  | false :: flags', a :: queue', s :: proof' => pair_of a s :: multi_pairs (queue' ++ [parent a s]) proof' flags'
  | _, _, _ => []
  end.
Definition misses (flags : list bool) : nat := length (List.filter negb flags).
(** The answer, or the error reported. *)
Definition judge (proof : list Z) (flags : list bool) (root : Z) (leaves : list Z) : bool + string :=
  if negb (length leaves + length proof =? length flags + 1)%nat then inr "MerkleProofInvalidTotalHashes()"
  else match flags, leaves with
       | [], _ => inl (root =? hd 0 (leaves ++ proof))
       | _, [] => inr "MerkleProofNoLeaves()"
       | _, _ =>
           if (misses flags <? length proof)%nat then inr "MerkleProofInvalidRootChild()"
           else if (length proof <? misses flags)%nat then inr "MerkleProofInvalidMultiProofLength()"
           else inl (root =? rebuild leaves proof flags)
       end.

(** Words and flags fit by construction. *)
Definition words_fit (l : list Z) : Prop := List.Forall is_u256 l.
(** ** What is sent and what comes back *)
Definition flag_word (b : bool) : Z := if b then 1 else 0.
Definition verify_data (proof : list Z) (root leaf : Z) : list Z :=
  calldata "verify(bytes32[],bytes32,bytes32)" [Words proof; Word root; Word leaf].
Definition multi_data (proof : list Z) (flags : list bool) (root : Z) (leaves : list Z) : list Z :=
  calldata "verifyMultiProof(bytes32[],bool[],bytes32,bytes32[])" [Words proof; Words (map flag_word flags); Word root; Words leaves].
Definition error_data (sig : string) : list Z := be_bytes 4 (sig_selector sig).
(** The encoding of one of the two calls, without value. *)
Definition verifier_call (value : Z) (input : list Z) : Prop :=
  value = 0 /\
  ((exists proof root leaf, words_fit proof /\ is_u256 root /\ is_u256 leaf /\ input = verify_data proof root leaf) \/
   (exists proof flags root leaves, words_fit proof /\ is_u256 root /\ words_fit leaves /\ input = multi_data proof flags root leaves)).
