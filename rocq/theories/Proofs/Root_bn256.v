(** Certificate for one of the shipped fields (generated): Huffman tree over the factors of p - 1. *)
From Coq Require Import ZArith List Bool Lia Znumtheory.
From Verif Require Import Proofs.Lucas Proofs.Primes.
Open Scope Z_scope.

Lemma bn256_root : prime 21888242871839275222246405745257275088548364400416034343698204186575808495617 /\
  forall x, 1 <= x < 21888242871839275222246405745257275088548364400416034343698204186575808495617 ->
  exists e, 0 <= e < 21888242871839275222246405745257275088548364400416034343698204186575808495617 - 1 /\ 7 ^ e mod 21888242871839275222246405745257275088548364400416034343698204186575808495617 = x.
Proof.
  apply (lucas _ 260 7
    (Node (Node (Node (Node (Leaf 983 1) (Node (Leaf 29 1) (Node (Leaf 3 2) (Leaf 13 1)))) (Leaf 2 28)) (Leaf 1670836401704629 1)) (Node (Node (Leaf 405928799 1) (Node (Leaf 11003 1) (Leaf 237073 1))) (Leaf 13818364434197438864469338081 1)))).
  - exact (Forall_cons _ prime_983 (Forall_cons _ prime_29 (Forall_cons _ prime_3 (Forall_cons _ prime_13 (Forall_cons _ prime_2 (Forall_cons _ prime_1670836401704629 (Forall_cons _ prime_405928799 (Forall_cons _ prime_11003 (Forall_cons _ prime_237073 (Forall_cons _ prime_13818364434197438864469338081 (Forall_nil _))))))))))).
  - vm_compute. reflexivity.
Qed.
