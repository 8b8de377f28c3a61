(** Certificate for one of the shipped fields (generated): Huffman tree over the factors of p - 1. *)
From Coq Require Import ZArith List Bool Lia Znumtheory.
From Verif Require Import Proofs.Lucas Proofs.Primes.
Open Scope Z_scope.

Lemma baby_bear_root : prime 2013265921 /\
  forall x, 1 <= x < 2013265921 ->
  exists e, 0 <= e < 2013265921 - 1 /\ 31 ^ e mod 2013265921 = x.
Proof.
  apply (lucas _ 37 31
    (Node (Node (Leaf 3 1) (Leaf 5 1)) (Leaf 2 27))).
  - exact (Forall_cons _ prime_3 (Forall_cons _ prime_5 (Forall_cons _ prime_2 (Forall_nil _)))).
  - vm_compute. reflexivity.
Qed.
