(** Model of lib/crypto/src/field/fp.rs (with [pow] and [sum_of_products] of field/mod.rs).

    An element of [Fp<P, N>] is the [Uint<N>] of its Montgomery form; [p] is [P::MODULUS]
    and [N = length p]. Associated constants are functions of the modulus. *)
From Coq Require Import ZArith List Bool Lia.
From Verif Require Import Model.Uint.
Import ListNotations.
#[global] Open Scope Z_scope.

(** lines 225-243 *)
Fixpoint inv_loop (m : Z) (n : nat) (inv : Z) : Z :=
  match n with O => inv | S n' => inv_loop m n' (u64 (u64 (inv * inv) * m)) end.
Definition inv (m : Z) : Z := u64 (- inv_loop m 63 1).

Section field.
  Context (p : uint).
  Definition N : nat := length p.
  (** lines 52-69; a constant whose evaluation panics does not compile *)
  Definition HAS_MODULUS_SPARE_BIT : bool := Z.shiftr (nth (N - 1) p 0) 63 =? 0.
  Definition INV : Z := inv (nth 0 p 0).
  Definition R : uint :=
    match ct_rem (MAX N) (ZERO N) p with Some r => ct_wrapping_add r (ONE N) | None => [] end.
  Definition R2 : uint :=
    match ct_rem (MAX N) (MAX N) p with Some r => ct_wrapping_add r (ONE N) | None => [] end.
  (** lines 303-313 *)
  Definition fp_ONE : uint := R.
  Definition fp_ZERO : uint := ZERO N.
  Definition is_zero (a : uint) : bool := ct_eq a fp_ZERO.

  (** lines 326-338, 375-381 *)
  Definition is_ge_modulus (a : uint) : bool := ct_ge a p.
  Definition ct_subtract_modulus (a : uint) : uint :=
    if is_ge_modulus a then ct_wrapping_sub a p else a.
  Definition ct_carrying_sub_modulus (a : uint) (carry : bool) : uint :=
    if carry || is_ge_modulus a then ct_wrapping_sub a p else a.
  (** lines 73-82 *)
  Definition add (a b : uint) : uint :=
    let '(a, c) := checked_add_assign a b in
    if HAS_MODULUS_SPARE_BIT then ct_subtract_modulus a else ct_carrying_sub_modulus a c.
  (** lines 86-92 *)
  Definition sub (a b : uint) : uint :=
    let a := if ct_gt b a then fst (checked_add_assign a p) else a in
    fst (checked_sub_assign a b).
  (** lines 96-105 *)
  Definition double (a : uint) : uint :=
    let '(a, c) := ct_checked_mul2 a in
    if HAS_MODULUS_SPARE_BIT then ct_subtract_modulus a else ct_carrying_sub_modulus a c.
  (** lines 109-115 *)
  Definition neg (a : uint) : uint :=
    if negb (is_zero a) then fst (checked_sub_assign p a) else a.

  (** lines 400-432; the inner loop over [MODULUS.limbs[1..]] is that of [ct_widening_mul] *)
  Fixpoint wide_reduction_loop (n : nat) (i : nat) (lo hi : uint) (carry2 : Z) : uint * Z :=
    match n with
    | O => (hi, carry2)
    | S n' =>
        let tmp := u64 (nth i lo 0 * INV) in
        let '(_, carry) := mac (nth i lo 0) tmp (nth 0 p 0) in
        let '(lo, hi, carry) := mul_inner N tmp (tl p) (i + 1) lo hi carry in
        let '(x, carry2) := adc (nth i hi 0) carry carry2 in
        wide_reduction_loop n' (S i) lo (upd hi i x) carry2
    end.
  Definition widening_montgomery_reduction (lo hi : uint) : bool * uint :=
    let '(hi, carry2) := wide_reduction_loop N 0 lo hi 0 in (negb (carry2 =? 0), hi).
  (** lines 359-366, 384-390 *)
  Definition mul (a b : uint) : uint :=
    let '(lo, hi) := ct_widening_mul a b in
    let '(carry, result) := widening_montgomery_reduction lo hi in
    if HAS_MODULUS_SPARE_BIT then ct_subtract_modulus result else ct_carrying_sub_modulus result carry.
  Definition square (a : uint) : uint := mul a a.

  (** lines 444-461; [ps] are the limbs [MODULUS.limbs[j..]] *)
  Fixpoint reduction_inner (k : Z) (ps : list Z) (j i : nat) (limbs : uint) (carry : Z) : uint * Z :=
    match ps with
    | [] => (limbs, carry)
    | m :: ps' =>
        let '(x, carry) := carrying_mac (nth ((j + i) mod N) limbs 0) k m carry in
        reduction_inner k ps' (S j) i (upd limbs ((j + i) mod N) x) carry
    end.
  Fixpoint reduction_loop (n : nat) (i : nat) (limbs : uint) : uint :=
    match n with
    | O => limbs
    | S n' =>
        let k := u64 (nth i limbs 0 * INV) in
        let '(_, carry) := mac (nth i limbs 0) k (nth 0 p 0) in
        let '(limbs, carry) := reduction_inner k (tl p) 1 i limbs carry in
        reduction_loop n' (S i) (upd limbs (i mod N) carry)
    end.
  Definition montgomery_reduction (a : uint) : uint := reduction_loop N 0 a.
  (** lines 206-220, 344-351; [Fp::new] and [from_bigint] *)
  Definition from_bigint (num : uint) : uint := if is_zero num then num else mul num R2.
  Definition into_bigint (a : uint) : uint := montgomery_reduction a.
  (** lines 571-575 *)
  Definition fp_cmp (a b : uint) : comparison := cmp (into_bigint a) (into_bigint b).

  (** lines 159-171 and 174-186: one of the two inner loops; [None]: out of fuel *)
  Definition halve (b : uint) : uint :=
    if ct_is_even b then div2 b else
    let '(b, carry) := checked_add_assign b p in
    let b := div2 b in
    if negb HAS_MODULUS_SPARE_BIT && carry
    then upd b (N - 1) (Z.lor (nth (N - 1) b 0) (2 ^ 63)) else b.
  Fixpoint even_loop (fuel : nat) (u b : uint) : option (uint * uint) :=
    if ct_is_even u then
      match fuel with O => None | S fuel' => even_loop fuel' (div2 u) (halve b) end
    else Some (u, b).
  (** lines 157-198 *)
  Fixpoint inverse_loop (fuel : nat) (u v b c : uint) : option uint :=
    if ct_eq u (ONE N) then Some b else
    if ct_eq v (ONE N) then Some c else
    match fuel with
    | O => None
    | S fuel' =>
        match even_loop fuel u b with
        | None => None
        | Some (u, b) =>
            match even_loop fuel v c with
            | None => None
            | Some (v, c) =>
                if ct_gt u v then inverse_loop fuel' (fst (checked_sub_assign u v)) v (sub b c) c
                else inverse_loop fuel' u (fst (checked_sub_assign v u)) b (sub c b)
            end
        end
    end.
  (** lines 142-199: the outer [None] stands for a loop that takes more than [fuel] rounds *)
  Definition inverse (fuel : nat) (a : uint) : option (option uint) :=
    if is_zero a then Some None else
    match inverse_loop fuel a p R2 fp_ZERO with Some r => Some (Some r) | None => None end.
  (** lines 708-718: [None] for a panic (or a loop that does not end) *)
  Definition div (fuel : nat) (a b : uint) : option uint :=
    match inverse fuel b with Some (Some i) => Some (mul a i) | _ => None end.

  (** field/mod.rs:128-157 *)
  Fixpoint pow_loop (x : uint) (bits : list bool) (res : option uint) : option uint :=
    match bits with
    | [] => res
    | has_bit :: bits' =>
        let res := match res with Some r => Some (square r) | None => None end in
        let res := if has_bit : bool then match res with None => Some x | Some r => Some (mul r x) end else res in
        pow_loop x bits' res
    end.
  Definition pow (x : uint) (trimmed_bits : list bool) : uint :=
    match pow_loop x trimmed_bits None with Some r => r | None => fp_ONE end.
  (** field/mod.rs:161-167 *)
  Fixpoint products_loop (a b : list uint) (sum : uint) : uint :=
    match a, b with
    | x :: a', y :: b' => products_loop a' b' (add sum (mul x y))
    | _, _ => sum
    end.
  Definition sum_of_products (a b : list uint) : uint := products_loop a b fp_ZERO.

  (** lines 585-627: conversions from (un)signed integers of at most 128 bits *)
  Definition from_unsigned (v : Z) : option uint :=
    match from_u128 N v with Some u => Some (from_bigint u) | None => None end.
  Definition from_signed (v : Z) : option uint :=
    match from_unsigned (Z.abs v) with
    | Some abs => Some (if 0 <? v then abs else neg abs)
    | None => None
    end.
  (** lines 634-656, for [N = 1] and an integer type with largest value [max] *)
  Definition to_int (max : Z) (a : uint) : option Z :=
    let w := nth 0 (into_bigint a) 0 in if w <=? max then Some w else None.
End field.
