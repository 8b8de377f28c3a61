(** Model of lib/crypto/src/merkle.rs and of the hashing interface of hash.rs and keccak.rs.

    A hasher is modelled by the function [H] from the list of byte strings it is updated
    with to its output, so that every deterministic [BuildHasher] is covered. Byte arrays
    are lists of byte values. *)
From Verif.Base Require Import Prelude Bytes Keccak.
From stdpp Require Import list.
#[global] Open Scope Z_scope.

Definition bytes := list Z.
(** [<] of Rust slices and arrays: lexicographic *)
Fixpoint blt (a b : bytes) : bool :=
  match a, b with
  | _, [] => false
  | [], _ :: _ => true
  | x :: a', y :: b' => (x <? y) || (x =? y) && blt a' b'
  end.
Fixpoint beq (a b : bytes) : bool :=
  match a, b with
  | [], [] => true
  | x :: a', y :: b' => (x =? y) && beq a' b'
  | _, _ => false
  end.

(** merkle.rs:324-346 *)
Inductive error := InvalidProofLength | InvalidRootChild | InvalidTotalHashes | NoLeaves.

Section hasher.
  Context (H : list bytes -> bytes).
  (** hash.rs:129-137 *)
  Definition hash_pair (a b : bytes) : bytes := H [a; b].
  (** hash.rs:142-154 *)
  Definition commutative_hash_pair (a b : bytes) : bytes :=
    if blt b a then hash_pair b a else hash_pair a b.
  (** merkle.rs:178-189 *)
  Definition process (proof : list bytes) (leaf : bytes) : bytes :=
    fold_left (fun leaf hash => commutative_hash_pair leaf hash) proof leaf.
  Definition verify (proof : list bytes) (root leaf : bytes) : bool := beq (process proof leaf) root.

  (** merkle.rs:291-313: the loop; [hashes] is the queue, indexing out of bounds panics *)
  Fixpoint multi_loop (proof : list bytes) (flags : list bool) (hashes : list bytes) (hashes_pos proof_pos : nat)
    : res error (list bytes) :=
    match flags with
    | [] => Ok hashes
    | flag :: flags' =>
        match nth_error hashes hashes_pos with
        | None => Panic
        | Some a =>
            if flag : bool then
              match nth_error hashes (S hashes_pos) with
              | None => Err InvalidRootChild
              | Some b => multi_loop proof flags' (hashes ++ [commutative_hash_pair a b]) (S (S hashes_pos)) proof_pos
              end
            else
              match nth_error proof proof_pos with
              | None => Err InvalidProofLength
              | Some b => multi_loop proof flags' (hashes ++ [commutative_hash_pair a b]) (S hashes_pos) (S proof_pos)
              end
        end
    end.
  (** merkle.rs:257-318 *)
  Definition verify_multi_proof (proof : list bytes) (proof_flags : list bool) (root : bytes) (leaves : list bytes)
    : res error bool :=
    let total_hashes := length proof_flags in
    if negb (Nat.eqb (length leaves + length proof) (total_hashes + 1)) then Err InvalidTotalHashes else
    if Nat.eqb total_hashes 0 then
      match leaves with
      | l :: _ => Ok (beq root l)
      | [] => match proof with
              | p :: _ => Ok (beq root p)
              | [] => Panic
              end
      end
    else
      match leaves with
      | [] => Err NoLeaves
      | _ =>
          match multi_loop proof proof_flags leaves 0 0 with
          | Ok hashes => match nth_error hashes (total_hashes + length leaves - 1) with
                         | Some rebuilt_root => Ok (beq root rebuilt_root)
                         | None => Panic
                         end
          | Err e => Err e
          | Panic => Panic
          end
      end.
End hasher.

(** keccak.rs: the default hasher *)
Definition keccak_hasher (updates : list bytes) : bytes := word (keccak256 (concat updates)).
