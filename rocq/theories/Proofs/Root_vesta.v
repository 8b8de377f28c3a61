(** Certificate for one of the shipped fields (generated): Huffman tree over the factors of p - 1. *)
From Coq Require Import ZArith List Bool Lia Znumtheory.
From Verif Require Import Proofs.Lucas Proofs.Primes.
Open Scope Z_scope.

Lemma vesta_root : prime 28948022309329048855892746252171976963363056481941647379679742748393362948097 /\
  forall x, 1 <= x < 28948022309329048855892746252171976963363056481941647379679742748393362948097 ->
  exists e, 0 <= e < 28948022309329048855892746252171976963363056481941647379679742748393362948097 - 1 /\ 5 ^ e mod 28948022309329048855892746252171976963363056481941647379679742748393362948097 = x.
Proof.
  apply (lucas _ 261 5
    (Node (Leaf 10427374428728808478656897599072717 1) (Node (Node (Node (Node (Leaf 3 2) (Leaf 1709 1)) (Leaf 24859 1)) (Leaf 2 32)) (Leaf 1690502597179744445941507 1)))).
  - exact (Forall_cons _ prime_10427374428728808478656897599072717 (Forall_cons _ prime_3 (Forall_cons _ prime_1709 (Forall_cons _ prime_24859 (Forall_cons _ prime_2 (Forall_cons _ prime_1690502597179744445941507 (Forall_nil _))))))).
  - vm_compute. reflexivity.
Qed.
