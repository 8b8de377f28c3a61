(** Specification vocabulary for multi-limb integers. *)
From Coq Require Import ZArith List Bool.
Import ListNotations.
Open Scope Z_scope.

(** The integer denoted by little-endian 64-bit limbs, and well-formed limb arrays. *)
Fixpoint val (l : list Z) : Z := match l with [] => 0 | x :: l' => x + 2 ^ 64 * val l' end.
Definition limbs (N : nat) (l : list Z) : Prop := length l = N /\ Forall (fun x => 0 <= x < 2 ^ 64) l.
Definition modulus (N : nat) : Z := 2 ^ (64 * Z.of_nat N).

(** The number of binary digits. *)
Definition bit_size (v n : Z) : Prop := 0 <= n /\ v < 2 ^ n /\ (0 < n -> 2 ^ (n - 1) <= v).

(** Positional notation, most significant digit first. *)
Definition digit_value (c : Z) : option Z :=
  if (48 <=? c) && (c <=? 57) then Some (c - 48)
  else if (97 <=? c) && (c <=? 122) then Some (c - 87)
  else if (65 <=? c) && (c <=? 90) then Some (c - 55)
  else None.
Inductive denotes (radix : Z) : list Z -> Z -> Prop :=
| denotes_nil : denotes radix [] 0
| denotes_snoc s v c d : denotes radix s v -> digit_value c = Some d -> d < radix ->
    denotes radix (s ++ [c]) (radix * v + d).

(** Little-endian bytes. *)
Fixpoint bytes_value (l : list Z) : Z := match l with [] => 0 | b :: l' => b + 256 * bytes_value l' end.

(** The [n] lowest bits of [v], most significant first. *)
Definition binary (n : nat) (v : Z) : list bool := map (fun i => Z.testbit v (Z.of_nat i)) (rev (seq 0 n)).
