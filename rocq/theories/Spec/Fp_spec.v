(** Specification vocabulary for prime field elements in Montgomery form. *)
From Coq Require Import ZArith List Bool.
From Verif Require Import Spec.Uint_spec.
Import ListNotations.
Open Scope Z_scope.

(** A legal modulus of [N] limbs, and canonical representations. *)
Definition odd_modulus (N : nat) (p : list Z) : Prop := limbs N p /\ Z.odd (val p) = true /\ 1 < val p.
Definition element (p x : list Z) : Prop := limbs (length p) x /\ val x < val p.

(** The number with the given binary digits, most significant first. *)
Definition bits_value (l : list bool) : Z := fold_left (fun e (b : bool) => 2 * e + Z.b2z b) l 0.
(** [sum_i a_i b_i] *)
Fixpoint dot (a b : list Z) : Z :=
  match a, b with x :: a', y :: b' => x * y + dot a' b' | _, _ => 0 end.
