(** Certificate for one of the shipped fields (generated): Huffman tree over the factors of p - 1. *)
From Coq Require Import ZArith List Bool Lia Znumtheory.
From Verif Require Import Proofs.Lucas Proofs.Primes.
Open Scope Z_scope.

Lemma pallas_root : prime 28948022309329048855892746252171976963363056481941560715954676764349967630337 /\
  forall x, 1 <= x < 28948022309329048855892746252171976963363056481941560715954676764349967630337 ->
  exists e, 0 <= e < 28948022309329048855892746252171976963363056481941560715954676764349967630337 - 1 /\ 5 ^ e mod 28948022309329048855892746252171976963363056481941560715954676764349967630337 = x.
Proof.
  apply (lucas _ 261 5
    (Node (Node (Node (Node (Leaf 3 1) (Leaf 463 1)) (Leaf 2 32)) (Leaf 539204044132271846773 1)) (Leaf 8999194758858563409123804352480028797519453 1))).
  - exact (Forall_cons _ prime_3 (Forall_cons _ prime_463 (Forall_cons _ prime_2 (Forall_cons _ prime_539204044132271846773 (Forall_cons _ prime_8999194758858563409123804352480028797519453 (Forall_nil _)))))).
  - vm_compute. reflexivity.
Qed.
