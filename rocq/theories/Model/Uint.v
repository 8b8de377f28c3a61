(** Model of lib/crypto/src/arithmetic/limb.rs and uint.rs (and of the bit iterator of bits.rs).

    A [Uint<N>] is the list of its [N] limbs, least significant first; a loop over all limbs
    is a recursion over the list(s). [None] stands for a panic. *)
From Coq Require Import ZArith List Bool Lia.
Import ListNotations.
#[global] Open Scope Z_scope.

Definition B : Z := 2 ^ 64.
(** Casts to u64 and u128. *)
Definition u64 (x : Z) : Z := x mod B.
Definition u128 (x : Z) : Z := x mod 2 ^ 128.

(** * limb.rs *)
(** lines 24-34 (native) *)
Definition widening_mul (a b : Z) : Z := u128 (a * b).
(** lines 39-53 *)
Definition widening_mul_wasm (a b : Z) : Z :=
  let a_lo := a mod 2 ^ 32 in
  let a_hi := Z.shiftr a 32 in
  let b_lo := b mod 2 ^ 32 in
  let b_hi := Z.shiftr b 32 in
  let lolo := u64 (a_lo * b_lo) in
  let lohi := u128 (Z.shiftl (u64 (a_lo * b_hi)) 32) in
  let hilo := u128 (Z.shiftl (u64 (a_hi * b_lo)) 32) in
  let hihi := u128 (Z.shiftl (u64 (a_hi * b_hi)) 64) in
  u128 (Z.lor lolo hihi + u128 (lohi + hilo)).
(** lines 57-64: (low limb, carry) *)
Definition mac (a b c : Z) : Z * Z :=
  let tmp := u128 (a + widening_mul b c) in
  (u64 tmp, u64 (Z.shiftr tmp 64)).
(** lines 68-82 *)
Definition carrying_mac (a b c carry : Z) : Z * Z :=
  let tmp := u128 (u128 (a + widening_mul b c) + carry) in
  (u64 tmp, u64 (Z.shiftr tmp 64)).
(** lines 87-96 *)
Definition adc (a b carry : Z) : Z * Z :=
  let tmp := u128 (a + b + carry) in
  (u64 tmp, u64 (Z.shiftr tmp 64)).
(** lines 100-106 *)
Definition adc_assign (a b : Z) (carry : bool) : Z * bool :=
  let tmp := u128 (a + b + Z.b2z carry) in
  (u64 tmp, negb (Z.shiftr tmp 64 =? 0)).
(** lines 111-123 *)
Definition sbb (a b borrow : Z) : Z * Z :=
  let tmp := u128 (B + a - b - borrow) in
  (u64 tmp, if Z.shiftr tmp 64 =? 0 then 1 else 0).
(** lines 127-132 *)
Definition overflowing_sub (a b : Z) : Z * bool := (u64 (a - b), a <? b).
Definition sbb_assign (a b : Z) (borrow : bool) : Z * bool :=
  let '(sub, borrow1) := overflowing_sub a b in
  let '(sub, borrow2) := overflowing_sub sub (Z.b2z borrow) in
  (sub, borrow1 || borrow2).

(** * uint.rs *)
Definition uint := list Z.
Definition ZERO (N : nat) : uint := repeat 0 N.
Definition MAX (N : nat) : uint := repeat (B - 1) N.
Definition ONE (N : nat) : uint := match N with O => [] | S n => 1 :: repeat 0 n end.
(** lines 92-100 *)
Definition ct_is_odd (a : uint) : bool := Z.land (nth 0 a 0) 1 =? 1.
Definition ct_is_even (a : uint) : bool := Z.land (nth 0 a 0) 1 =? 0.
(** lines 105-163: from the most significant limb *)
Fixpoint ge_be (a b : list Z) : bool :=
  match a, b with
  | x :: a', y :: b' => if y <? x then true else if x <? y then false else ge_be a' b'
  | _, _ => true
  end.
Definition ct_ge (a b : uint) : bool := ge_be (rev a) (rev b).
Fixpoint gt_be (a b : list Z) : bool :=
  match a, b with
  | x :: a', y :: b' => if y <? x then true else if x <? y then false else gt_be a' b'
  | _, _ => false
  end.
Definition ct_gt (a b : uint) : bool := gt_be (rev a) (rev b).
Fixpoint le_be (a b : list Z) : bool :=
  match a, b with
  | x :: a', y :: b' => if x <? y then true else if y <? x then false else le_be a' b'
  | _, _ => true
  end.
Definition ct_le (a b : uint) : bool := le_be (rev a) (rev b).
Fixpoint lt_be (a b : list Z) : bool :=
  match a, b with
  | x :: a', y :: b' => if x <? y then true else if y <? x then false else lt_be a' b'
  | _, _ => false
  end.
Definition ct_lt (a b : uint) : bool := lt_be (rev a) (rev b).
(** lines 167-187 *)
Fixpoint ct_eq (a b : uint) : bool :=
  match a, b with
  | x :: a', y :: b' => if negb (x =? y) then false else ct_eq a' b'
  | _, _ => true
  end.
Definition ct_is_zero (a : uint) : bool := ct_eq a (ZERO (length a)).
Definition ct_ne (a b : uint) : bool := negb (ct_eq a b).
(** lines 546-560 *)
Fixpoint cmp_be (a b : list Z) : comparison :=
  match a, b with
  | x :: a', y :: b' => match x ?= y with Eq => cmp_be a' b' | order => order end
  | _, _ => Eq
  end.
Definition cmp (a b : uint) : comparison := cmp_be (rev a) (rev b).
(** lines 192-217; [u64::leading_zeros] *)
Definition bit_length (x : Z) : Z := if x =? 0 then 0 else Z.log2 x + 1.
Definition leading_zeros (x : Z) : Z := 64 - bit_length x.
Fixpoint num_bits_be (limbs : list Z) (num_bits : Z) : Z :=
  match limbs with
  | [] => num_bits
  | x :: limbs' =>
      let num_bits := num_bits - leading_zeros x in
      if negb (leading_zeros x =? 64) then num_bits else num_bits_be limbs' num_bits
  end.
Definition ct_num_bits (a : uint) : Z := num_bits_be (rev a) (64 * Z.of_nat (length a)).
(** lines 220-233 *)
Definition ct_get_bit (a : uint) (i : Z) : bool :=
  if 64 * Z.of_nat (length a) <=? i then false else
  let limb := i / 64 in
  let bit := i - 64 * limb in
  let mask := u64 (Z.shiftl 1 bit) in
  negb (Z.land (nth (Z.to_nat limb) a 0) mask =? 0).
(** lines 237-262 *)
Fixpoint mul2_loop (a : uint) (last : Z) : uint * Z :=
  match a with
  | [] => ([], last)
  | x :: a' =>
      let '(r, last') := mul2_loop a' (Z.shiftr x 63) in
      (Z.lor (u64 (Z.shiftl x 1)) last :: r, last')
  end.
Definition ct_checked_mul2 (a : uint) : uint * bool :=
  let '(r, last) := mul2_loop a 0 in (r, negb (last =? 0)).
(** lines 264-273: from the most significant limb *)
Fixpoint div2_be (a : list Z) (t : Z) : list Z :=
  match a with
  | [] => []
  | x :: a' => Z.lor (Z.shiftr x 1) t :: div2_be a' (u64 (Z.shiftl x 63))
  end.
Definition div2 (a : uint) : uint := rev (div2_be (rev a) 0).
(** lines 278-296 *)
Fixpoint sub_loop (a b : uint) (borrow : Z) : uint * Z :=
  match a, b with
  | x :: a', y :: b' =>
      let '(d, borrow) := sbb x y borrow in
      let '(r, out) := sub_loop a' b' borrow in
      (d :: r, out)
  | _, _ => ([], borrow)
  end.
Definition ct_checked_sub (a b : uint) : uint * bool :=
  let '(r, borrow) := sub_loop a b 0 in (r, negb (borrow =? 0)).
Definition ct_wrapping_sub (a b : uint) : uint := fst (ct_checked_sub a b).
(** lines 300-309, 398-407 *)
Fixpoint ct_adc (a b : uint) (carry : Z) : uint * Z :=
  match a, b with
  | x :: a', y :: b' =>
      let '(s, carry) := adc x y carry in
      let '(r, out) := ct_adc a' b' carry in
      (s :: r, out)
  | _, _ => ([], carry)
  end.
Definition ct_checked_add (a b : uint) : uint * bool :=
  let '(r, carry) := ct_adc a b 0 in (r, negb (carry =? 0)).
(** lines 312-322 *)
Fixpoint add_assign_loop (a b : uint) (carry : bool) : uint * bool :=
  match a, b with
  | x :: a', y :: b' =>
      let '(s, carry) := adc_assign x y carry in
      let '(r, out) := add_assign_loop a' b' carry in
      (s :: r, out)
  | _, _ => ([], carry)
  end.
Definition checked_add_assign (a b : uint) : uint * bool := add_assign_loop a b false.
(** lines 325-336 *)
Fixpoint sub_assign_loop (a b : uint) (borrow : bool) : uint * bool :=
  match a, b with
  | x :: a', y :: b' =>
      let '(d, borrow) := sbb_assign x y borrow in
      let '(r, out) := sub_assign_loop a' b' borrow in
      (d :: r, out)
  | _, _ => ([], borrow)
  end.
Definition checked_sub_assign (a b : uint) : uint * bool := sub_assign_loop a b false.

(** Array assignment [a[i] = x]. *)
Fixpoint upd (a : list Z) (i : nat) (x : Z) : list Z :=
  match a, i with
  | [], _ => []
  | _ :: a', O => x :: a'
  | y :: a', S i' => y :: upd a' i' x
  end.
(** lines 348-379; the inner loop over the limbs [rhs] with [k = i + j] *)
Fixpoint mul_inner (N : nat) (a : Z) (rhs : list Z) (k : nat) (lo hi : uint) (carry : Z) : uint * uint * Z :=
  match rhs with
  | [] => (lo, hi, carry)
  | b :: rhs' =>
      if (N <=? k)%nat then
        let '(x, carry) := carrying_mac (nth (k - N) hi 0) a b carry in
        mul_inner N a rhs' (S k) lo (upd hi (k - N) x) carry
      else
        let '(x, carry) := carrying_mac (nth k lo 0) a b carry in
        mul_inner N a rhs' (S k) (upd lo k x) hi carry
  end.
Fixpoint mul_outer (N : nat) (lhs rhs : uint) (i : nat) (lo hi : uint) : uint * uint :=
  match lhs with
  | [] => (lo, hi)
  | a :: lhs' =>
      let '(lo, hi, carry) := mul_inner N a rhs i lo hi 0 in
      mul_outer N lhs' rhs (S i) lo (upd hi i carry)
  end.
Definition ct_widening_mul (a b : uint) : uint * uint :=
  let N := length a in mul_outer N a b 0 (ZERO N) (ZERO N).
(** lines 382-396 *)
Definition ct_mul (a b : uint) : option uint :=
  let '(low, high) := ct_widening_mul a b in
  if ct_eq high (ZERO (length a)) then Some low else None.
Definition ct_add (a b : uint) : option uint :=
  let '(low, carry) := ct_adc a b 0 in if carry =? 0 then Some low else None.
Definition ct_wrapping_add (a b : uint) : uint := fst (ct_adc a b 0).

(** Little-endian bytes of a limb and back. *)
Fixpoint to_le_bytes (n : nat) (x : Z) : list Z :=
  match n with O => [] | S n' => x mod 256 :: to_le_bytes n' (x / 256) end.
Fixpoint from_le_bytes (l : list Z) : Z :=
  match l with [] => 0 | b :: l' => b + 256 * from_le_bytes l' end.
(** lines 418-436 *)
Fixpoint le_limbs (n : nat) (bytes : list Z) : uint :=
  match n with O => [] | S n' => from_le_bytes (firstn 8 bytes) :: le_limbs n' (skipn 8 bytes) end.
Definition ct_from_le_slice (N : nat) (bytes : list Z) : option uint :=
  if Nat.eqb (length bytes) (8 * N) then Some (le_limbs N bytes) else None.
(** lines 679-681 *)
Definition into_bytes_le (a : uint) : list Z := flat_map (to_le_bytes 8) a.
(** lines 443-496: [from_u8] .. [from_u64] and [from_u128] *)
Definition from_u64 (N : nat) (v : Z) : option uint :=
  match N with O => None | S n => Some (v :: repeat 0 n) end.
Definition from_u128 (N : nat) (v : Z) : option uint :=
  let lo := u64 v in
  let hi := u64 (Z.shiftr v 64) in
  match N with
  | O => None
  | S O => if hi =? 0 then Some [lo] else None
  | S (S n) => Some (lo :: hi :: repeat 0 n)
  end.
(** lines 578-655 *)
Fixpoint map2 (f : Z -> Z -> Z) (a b : uint) : uint :=
  match a, b with x :: a', y :: b' => f x y :: map2 f a' b' | _, _ => [] end.
Definition bitxor := map2 Z.lxor.
Definition bitand := map2 Z.land.
Definition bitor := map2 Z.lor.
Definition bitnot (a : uint) : uint := map (fun x => B - 1 - x) a.
(** bits.rs:17-25, uint.rs:685-697: bits from the most significant one *)
Fixpoint bits_be (n : nat) (x : Z) : list bool :=
  match n with O => [] | S n' => Z.testbit x (Z.of_nat n') :: bits_be n' x end.
Definition bit_be_iter (a : uint) : list bool := flat_map (bits_be 64) (rev a).
(** bits.rs:12-14 *)
Fixpoint skip_zeros (l : list bool) : list bool :=
  match l with false :: l' => skip_zeros l' | _ => l end.
Definition bit_be_trimmed_iter (a : uint) : list bool := skip_zeros (bit_be_iter a).

(** lines 782-798: [char::to_digit] of an ASCII character; radix at most 36 *)
Definition parse_digit (c radix : Z) : option Z :=
  if negb (c <? 128) then None else
  if negb ((2 <=? radix) && (radix <=? 36)) then None else
  let d := if (48 <=? c) && (c <=? 57) then c - 48
           else if (97 <=? c) && (c <=? 122) then c - 97 + 10
           else if (65 <=? c) && (c <=? 90) then c - 65 + 10
           else 36 in
  if d <? radix then Some d else None.
(** lines 703-735: the string is read from its end *)
Fixpoint radix_loop (N : nat) (radix : Z) (uradix : uint) (s_rev : list Z) (acc order : uint) : option uint :=
  match s_rev with
  | [] => None
  | c :: s' =>
      match parse_digit c radix with
      | None => None
      | Some d =>
          match from_u64 N d with
          | None => None
          | Some digit =>
              match ct_mul digit order with
              | None => None
              | Some x =>
                  match ct_add acc x with
                  | None => None
                  | Some acc =>
                      match s' with
                      | [] => Some acc
                      | _ => match ct_mul uradix order with
                             | None => None
                             | Some order => radix_loop N radix uradix s' acc order
                             end
                      end
                  end
              end
          end
      end
  end.
Definition from_str_radix (N : nat) (s : list Z) (radix : Z) : option uint :=
  match from_u64 N 0, from_u64 N 1, from_u64 N radix with
  | Some zero, Some one, Some uradix => radix_loop N radix uradix (rev s) zero one
  | _, _, _ => None
  end.
(** lines 745-779; [num_index] counts hex digits, indexing beyond the last limb panics *)
Fixpoint hex_loop (s_rev : list Z) (num : uint) (num_index : nat) : option uint :=
  match s_rev with
  | [] => None
  | c :: s' =>
      match parse_digit c 16 with
      | None => None
      | Some d =>
          let mask := u64 (Z.shiftl d (Z.of_nat (num_index mod 16 * 4))) in
          let i := (num_index / 16)%nat in
          if (length num <=? i)%nat then None else
          let num := upd num i (Z.lor (nth i num 0) mask) in
          match s' with
          | [] => Some num
          | _ => hex_loop s' num (S num_index)
          end
      end
  end.
Definition from_str_hex (N : nat) (s : list Z) : option uint := hex_loop (rev s) (ZERO N) 0.

(** lines 820-884: the wide integer [low + 2^(64N) high] *)
Definition wide_num_bits (low high : uint) : Z :=
  let high_num_bits := ct_num_bits high in
  if high_num_bits =? 0 then ct_num_bits low else high_num_bits + 64 * Z.of_nat (length low).
Definition wide_get_bit (low high : uint) (i : Z) : bool :=
  if 64 * Z.of_nat (length low) <=? i then ct_get_bit high (i - 64 * Z.of_nat (length low))
  else ct_get_bit low i.
Definition or_low (a : uint) (bit : Z) : uint :=
  match a with [] => [] | x :: a' => Z.lor x bit :: a' end.
(** lines 837-862; [rem_loop] runs from bit [index - 1] down to bit 0 *)
Definition rem_step (low high rhs remainder : uint) (index : Z) : uint :=
  let '(result, carry) := ct_checked_mul2 remainder in
  let remainder := or_low result (Z.b2z (wide_get_bit low high index)) in
  if ct_ge remainder rhs || carry then fst (ct_checked_sub remainder rhs) else remainder.
Fixpoint rem_loop (low high rhs remainder : uint) (n : nat) : uint :=
  match n with
  | O => remainder
  | S n' => rem_loop low high rhs (rem_step low high rhs remainder (Z.of_nat n')) n'
  end.
(** For the value zero, [ct_num_bits() - 1] underflows: a panic where overflow is checked. *)
Definition ct_rem (low high rhs : uint) : option uint :=
  if ct_is_zero rhs then None else
  if wide_num_bits low high =? 0 then None else
  Some (rem_loop low high rhs (ZERO (length rhs)) (Z.to_nat (wide_num_bits low high))).
