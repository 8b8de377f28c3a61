(** Certificate for one of the shipped fields (generated): Huffman tree over the factors of p - 1. *)
From Coq Require Import ZArith List Bool Lia Znumtheory.
From Verif Require Import Proofs.Lucas Proofs.Primes.
Open Scope Z_scope.

Lemma goldilocks_root : prime 18446744069414584321 /\
  forall x, 1 <= x < 18446744069414584321 ->
  exists e, 0 <= e < 18446744069414584321 - 1 /\ 7 ^ e mod 18446744069414584321 = x.
Proof.
  apply (lucas _ 70 7
    (Node (Node (Node (Node (Node (Leaf 3 1) (Leaf 5 1)) (Leaf 17 1)) (Leaf 257 1)) (Leaf 65537 1)) (Leaf 2 32))).
  - exact (Forall_cons _ prime_3 (Forall_cons _ prime_5 (Forall_cons _ prime_17 (Forall_cons _ prime_257 (Forall_cons _ prime_65537 (Forall_cons _ prime_2 (Forall_nil _))))))).
  - vm_compute. reflexivity.
Qed.
