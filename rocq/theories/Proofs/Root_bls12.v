(** Certificate for one of the shipped fields (generated): Huffman tree over the factors of p - 1. *)
From Coq Require Import ZArith List Bool Lia Znumtheory.
From Verif Require Import Proofs.Lucas Proofs.Primes.
Open Scope Z_scope.

Lemma bls12_root : prime 52435875175126190479447740508185965837690552500527637822603658699938581184513 /\
  forall x, 1 <= x < 52435875175126190479447740508185965837690552500527637822603658699938581184513 ->
  exists e, 0 <= e < 52435875175126190479447740508185965837690552500527637822603658699938581184513 - 1 /\ 7 ^ e mod 52435875175126190479447740508185965837690552500527637822603658699938581184513 = x.
Proof.
  apply (lucas _ 261 7
    (Node (Node (Node (Node (Node (Leaf 19 1) (Node (Leaf 3 1) (Leaf 11 1))) (Leaf 10177 1)) (Leaf 52437899 1)) (Leaf 254760293 2)) (Node (Node (Leaf 2 32) (Node (Leaf 125527 1) (Leaf 859267 1))) (Node (Leaf 906349 2) (Node (Leaf 2508409 1) (Leaf 2529403 1)))))).
  - exact (Forall_cons _ prime_19 (Forall_cons _ prime_3 (Forall_cons _ prime_11 (Forall_cons _ prime_10177 (Forall_cons _ prime_52437899 (Forall_cons _ prime_254760293 (Forall_cons _ prime_2 (Forall_cons _ prime_125527 (Forall_cons _ prime_859267 (Forall_cons _ prime_906349 (Forall_cons _ prime_2508409 (Forall_cons _ prime_2529403 (Forall_nil _))))))))))))).
  - vm_compute. reflexivity.
Qed.
