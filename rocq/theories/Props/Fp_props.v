(** C60, C61: prime field elements in Montgomery form.

    The integer an element stands for is the one [into_bigint] reports. *)
From Coq Require Import ZArith List Bool Lia Znumtheory.
From Verif Require Import Model.Uint Model.Fp Spec.Uint_spec Spec.Fp_spec Proofs.Uint_lemmas Proofs.Fp_lemmas.
Import ListNotations.
Open Scope Z_scope.

Notation value p x := (val (into_bigint p x)).
Ltac start H := destruct H as (Hp & Hodd & Hgt); pose proof (limbs_len _ _ Hp) as Hlen; subst.

(** * C60 *)
(** Conversion from an integer reduces it; canonical representations are the only ones
    produced, they are read back exactly, and two are equal iff they denote the same class. *)
Theorem c60_convert N p num x y : odd_modulus N p -> limbs N num -> element p x -> element p y ->
  (element p (from_bigint p num) /\ value p (from_bigint p num) = val num mod val p) /\
  (limbs N (into_bigint p x) /\ 0 <= value p x < val p) /\
  from_bigint p (into_bigint p x) = x /\
  (x = y <-> value p x mod val p = value p y mod val p).
Proof.
  intros H Hn Hx Hy. start H. split; [apply from_ok; auto|].
  destruct (into_ok p Hp Hodd Hgt x Hx) as (I1 & I2 & _). destruct (into_ok p Hp Hodd Hgt y Hy) as (_ & I3 & _).
  unfold as_Z in *. split; [auto|]. split; [apply from_into; auto|].
  rewrite !Z.mod_small by auto. split; [congruence|]. intros E. apply (as_Z_inj p); auto.
Qed.
Print Assumptions c60_convert.

Theorem c60_constants N p : odd_modulus N p ->
  element p (fp_ZERO p) /\ value p (fp_ZERO p) = 0 /\ element p (fp_ONE p) /\ value p (fp_ONE p) = 1 /\
  (forall x, element p x -> is_zero p x = true <-> value p x = 0).
Proof.
  intros H. start H. split; [apply zero_elt; auto|]. split; [apply (zero_ok p); auto|].
  split; [apply (one_ok p); auto|]. split; [apply (one_ok p); auto|]. intros. apply (is_zero_iff p); auto.
Qed.
Print Assumptions c60_constants.

Theorem c60_ring_operations N p x y : odd_modulus N p -> element p x -> element p y ->
  (element p (add p x y) /\ value p (add p x y) = (value p x + value p y) mod val p) /\
  (element p (sub p x y) /\ value p (sub p x y) = (value p x - value p y) mod val p) /\
  (element p (mul p x y) /\ value p (mul p x y) = (value p x * value p y) mod val p) /\
  (element p (neg p x) /\ value p (neg p x) = (- value p x) mod val p) /\
  (element p (double p x) /\ value p (double p x) = (2 * value p x) mod val p) /\
  (element p (square p x) /\ value p (square p x) = (value p x * value p x) mod val p).
Proof.
  intros H Hx Hy. start H. 
  split; [apply add_ok; auto|]. split; [apply sub_ok; auto|]. split; [apply mul_ok; auto|].
  split; [apply neg_ok; auto|]. split; [apply double_ok; auto|]. apply mul_ok; auto.
Qed.
Print Assumptions c60_ring_operations.

Theorem c60_sum_of_products N p a b : odd_modulus N p -> Forall (element p) a -> Forall (element p) b ->
  element p (sum_of_products p a b) /\
  value p (sum_of_products p a b) = dot (map (fun x => value p x) a) (map (fun x => value p x) b) mod val p.
Proof.
  intros H Ha Hb. start H. destruct (products_ok p Hp Hodd Hgt a b Ha Hb (fp_ZERO p)) as [P1 P2]; [apply zero_elt; auto|].
  split; [auto|]. unfold as_Z in P2 at 1. unfold sum_of_products. rewrite P2, (zero_ok p) by auto. reflexivity.
Qed.
Print Assumptions c60_sum_of_products.

(** [pow] takes the bits of the exponent with leading zeros removed; removing them or not
    makes no difference, and the exponent may have any number of limbs. *)
Theorem c60_pow N M p x e : odd_modulus N p -> element p x -> limbs M e ->
  element p (pow p x (bit_be_trimmed_iter e)) /\
  value p (pow p x (bit_be_trimmed_iter e)) = value p x ^ val e mod val p /\
  pow p x (bit_be_iter e) = pow p x (bit_be_trimmed_iter e).
Proof.
  intros H Hx He. start H. destruct (pow_ok p Hp Hodd Hgt x (bit_be_trimmed_iter e) Hx) as [P1 P2].
  destruct (pow_ok p Hp Hodd Hgt x (bit_be_iter e) Hx) as [P3 P4].
  rewrite (bits_value_trimmed M) in P2 by auto. rewrite (bits_value_iter M) in P4 by auto.
  split; [auto|]. split; [auto|]. apply (as_Z_inj p); auto. congruence.
Qed.
Print Assumptions c60_pow.

Theorem c60_compare N p x y : odd_modulus N p -> element p x -> element p y ->
  fp_cmp p x y = (value p x ?= value p y).
Proof.
  intros H Hx Hy. start H. unfold fp_cmp. apply (cmp_ok (length p)); apply (into_ok p); auto.
Qed.
Print Assumptions c60_compare.

(** Machine integers are reduced; only a one-limb field rejects (by panicking) those
    that need more than one limb. *)
Theorem c60_from_integers N p v : odd_modulus N p ->
  (0 <= v < 2 ^ 128 -> 
     (from_unsigned p v = None <-> N = 1%nat /\ 2 ^ 64 <= v) /\
     forall x, from_unsigned p v = Some x -> element p x /\ value p x = v mod val p) /\
  (- 2 ^ 127 <= v < 2 ^ 127 ->
     (from_signed p v = None <-> N = 1%nat /\ 2 ^ 64 <= Z.abs v) /\
     forall x, from_signed p v = Some x -> element p x /\ value p x = v mod val p).
Proof.
  intros H. start H.
  assert (U : forall v, 0 <= v < 2 ^ 128 -> (from_unsigned p v = None <-> length p = 1%nat /\ 2 ^ 64 <= v) /\
     forall x, from_unsigned p v = Some x -> element p x /\ value p x = v mod val p).
  { clear v. intros v Hv. unfold from_unsigned, N. pose proof (n_pos p Hp Hgt) as Hn. 
    pose proof (fun u => from_u128_ok (length p) v u Hn Hv) as Hu.
    destruct (from_u128 (length p) v) as [u|] eqn:E.
    - destruct (proj1 (Hu u) eq_refl) as (L1 & L2). destruct (from_ok p Hp Hodd Hgt u L1) as [F1 F2].
      split.
      + split; [discriminate|]. intros [El Hb]. exfalso. rewrite El in L1. pose proof (val_bound _ _ L1) as Hvb.
        rewrite Bp_pow2 in Hvb. change (64 * Z.of_nat 1) with 64 in Hvb. lia.
      + intros x [= <-]. rewrite L2 in F2. auto.
    - split; [|discriminate]. split; [|auto]. intros _.
      assert (~ v < Bp (length p)) as G.
      { intros Hlt. destruct (limbs_exist (length p) v ltac:(lia)) as (u & Hu1 & Hu2).
        assert (None = Some u) by (apply Hu; auto). discriminate. }
      rewrite Bp_pow2 in G. destruct (length p) as [|[|k]]; [lia|split; [auto|]|].
      + change (64 * Z.of_nat 1) with 64 in G. lia.
      + exfalso. apply G. pose proof (Z.pow_le_mono_r 2 128 (64 * Z.of_nat (S (S k))) ltac:(lia) ltac:(lia)). lia. }
  split; [apply U|]. intros Hv. destruct (U (Z.abs v) ltac:(lia)) as [U1 U2]. unfold from_signed.
  destruct (from_unsigned p (Z.abs v)) as [a|].
  - split; [split; [discriminate|]; intros G; apply U1 in G; discriminate|]. intros x [= <-].
    destruct (U2 a eq_refl) as [A1 A2]. destruct (Z.ltb_spec 0 v).
    + rewrite Z.abs_eq in A2 by lia. auto.
    + destruct (neg_ok p Hp Hodd Hgt a A1) as [N1 N2]. split; [auto|]. unfold as_Z in N2. rewrite N2, A2.
      rewrite Z.abs_neq by lia. rewrite <- (Z.sub_0_l (_ mod _)), Zminus_mod_idemp_r. f_equal. lia.
  - split; [|discriminate]. split; [|auto]. intros _. apply U1. auto.
Qed.
Print Assumptions c60_from_integers.

(** One-limb elements convert to an integer type exactly when their value fits in it. *)
Theorem c60_to_integers p max x : odd_modulus 1 p -> element p x ->
  to_int p max x = if value p x <=? max then Some (value p x) else None.
Proof.
  intros H Hx. destruct H as (Hp & Hodd & Hgt). pose proof (limbs_len _ _ Hp) as Hlen.
  rewrite <- Hlen in Hp. destruct (into_ok p Hp Hodd Hgt x Hx) as (I1 & _). rewrite Hlen in I1.
  unfold to_int. apply limbs_inv_S in I1 as (w & l & -> & _ & Hl). apply limbs_inv_0 in Hl. subst l.
  cbn [nth]. rewrite val_cons. cbn [val]. rewrite Z.mul_0_r, Z.add_0_r. auto.
Qed.
Print Assumptions c60_to_integers.

(** Goldilocks has no spare bit: two elements whose sum overflows the limb. *)
Example c60_goldilocks : let p := [18446744069414584321] in
  odd_modulus 1 p /\ HAS_MODULUS_SPARE_BIT p = false /\ element p [18446744069414584320] /\
  add p [18446744069414584320] [18446744069414584320] = [18446744069414584319] /\
  value p (from_bigint p [18446744073709551615]) = 18446744073709551615 - 18446744069414584321.
Proof.
  cbv zeta. assert (L : forall x, 0 <= x < 2 ^ 64 -> limbs 1 [x]) by (intros; apply limbs_cons; auto using limbs_nil).
  split; [split; [apply L; lia|]; split; reflexivity|]. split; [reflexivity|]. split; [split; [apply L; lia|reflexivity]|].
  split; vm_compute; reflexivity.
Qed.
(** A two-limb modulus. *)
Example c60_two_limbs : let p := [5; 1] in
  odd_modulus 2 p /\ HAS_MODULUS_SPARE_BIT p = true /\
  value p (mul p (from_bigint p [0; 1]) (from_bigint p [18446744073709551615; 0])) = 30.
Proof.
  cbv zeta. split; [split; [|split; reflexivity]|split; vm_compute; reflexivity].
  apply limbs_cons; [split; [lia|reflexivity]|]. apply limbs_cons; [split; [lia|reflexivity]|]. apply limbs_nil.
Qed.

(** * C61 *)
(** For a prime modulus the loops end within [128 N + 1] rounds. *)
Theorem c61_inverse N p a : limbs N p -> prime (val p) -> val p <> 2 -> element p a ->
  (value p a = 0 -> forall fuel, inverse p fuel a = Some None) /\
  (value p a <> 0 -> exists b, element p b /\ (value p a * value p b) mod val p = 1 /\
     forall fuel, (128 * N + 1 <= fuel)%nat -> inverse p fuel a = Some (Some b)).
Proof.
  intros Hp Hpr H2 Ha. pose proof (prime_ge_2 _ Hpr). pose proof (limbs_len _ _ Hp). subst N.
  assert (Hodd : Z.odd (val p) = true).
  { rewrite <- Z.negb_even. destruct (Z.even (val p)) eqn:E; [|auto]. apply Z.even_spec in E as [k Hk].
    assert (D : (2 | val p)) by (exists k; lia). destruct (prime_divisors _ Hpr 2 D) as [?|[?|[?|?]]]; lia. }
  assert (Hgt : 1 < val p) by lia. split.
  - intros Hz fuel. unfold inverse. assert (is_zero p a = true) as -> by (apply is_zero_iff; auto). auto.
  - intros Hz. destruct (into_ok p Hp Hodd Hgt a Ha) as (_ & Ia & _).
    assert (G : rel_prime (as_Z p a) (val p)).
    { apply rel_prime_sym. apply prime_rel_prime; auto. intros D. apply Z.divide_pos_le in D; unfold as_Z in *; lia. }
    destruct (inverse_ok p Hp Hodd Hgt (inverse_fuel p) a (le_n _) Ha Hz G) as (b & B1 & B2 & B3).
    exists b. split; [auto|]. split; [auto|]. intros fuel Hf.
    destruct (inverse_ok p Hp Hodd Hgt fuel a ltac:(unfold inverse_fuel; lia) Ha Hz G) as (b' & B1' & B2' & B3').
    rewrite B1'. do 2 f_equal. apply (as_Z_inj p); auto.
    destruct (into_ok p Hp Hodd Hgt b B2) as (_ & Ib & _). destruct (into_ok p Hp Hodd Hgt b' B2') as (_ & Ib' & _).
    apply (divide_eq p); auto. apply (Gauss _ (as_Z p a)); [|apply rel_prime_sym; auto].
    pose proof (Z.div_mod (as_Z p a * as_Z p b) (val p) ltac:(lia)) as D1.
    pose proof (Z.div_mod (as_Z p a * as_Z p b') (val p) ltac:(lia)) as D2. rewrite B3 in D1. rewrite B3' in D2.
    exists (as_Z p a * as_Z p b' / val p - as_Z p a * as_Z p b / val p). lia.
Qed.
Print Assumptions c61_inverse.

(** Division multiplies by the inverse, and panics exactly when dividing by zero. *)
Theorem c61_division N p a b fuel : limbs N p -> prime (val p) -> val p <> 2 -> element p a -> element p b ->
  (128 * N + 1 <= fuel)%nat ->
  match div p fuel a b with
  | None => value p b = 0
  | Some q => value p b <> 0 /\ element p q /\ (value p q * value p b) mod val p = value p a
  end.
Proof.
  intros Hp Hpr H2 Ha Hb Hf. destruct (c61_inverse N p b Hp Hpr H2 Hb) as [Z1 Z2]. unfold div.
  destruct (Z.eq_dec (value p b) 0) as [E|E]; [rewrite (Z1 E fuel); auto|].
  destruct (Z2 E) as (i & I1 & I2 & I3). rewrite I3 by auto. split; [auto|].
  pose proof (prime_ge_2 _ Hpr). pose proof (limbs_len _ _ Hp). subst N.
  assert (Hodd : Z.odd (val p) = true).
  { rewrite <- Z.negb_even. destruct (Z.even (val p)) eqn:Ev; [|auto]. apply Z.even_spec in Ev as [k Hk].
    assert (D : (2 | val p)) by (exists k; lia). destruct (prime_divisors _ Hpr 2 D) as [?|[?|[?|?]]]; lia. }
  assert (Hgt : 1 < val p) by lia. destruct (mul_ok p Hp Hodd Hgt a i Ha I1) as [M1 M2]. split; [auto|].
  unfold as_Z in M2. rewrite M2, Z.mul_mod_idemp_l by lia.
  replace (value p a * value p i * value p b) with (value p a * (value p b * value p i)) by ring.
  rewrite <- Z.mul_mod_idemp_r, I2, Z.mul_1_r by lia. apply Z.mod_small.
  apply (into_ok p Hp Hodd Hgt a Ha).
Qed.
Print Assumptions c61_division.

(** Primality matters: over a composite odd modulus inversion returns for the units
    and never returns for the other elements. *)
Theorem c61_composite N p a : odd_modulus N p -> element p a -> value p a <> 0 ->
  (Z.gcd (value p a) (val p) = 1 <-> exists fuel, inverse p fuel a <> None).
Proof.
  intros H Ha Hz. start H. split.
  - intros G. exists (inverse_fuel p). destruct (inverse_ok p Hp Hodd Hgt (inverse_fuel p) a (le_n _) Ha Hz) as (b & E & _).
    + apply Zgcd_1_rel_prime. auto.
    + congruence.
  - intros [fuel Hf]. destruct (Z.eq_dec (Z.gcd (value p a) (val p)) 1) as [|G]; [auto|]. exfalso. apply Hf.
    apply (inverse_div p Hp Hodd Hgt (Z.gcd (value p a) (val p))); auto using Z.gcd_divide_l, Z.gcd_divide_r.
    pose proof (Z.gcd_nonneg (value p a) (val p)). assert (Z.gcd (value p a) (val p) <> 0); [|lia].
    intros E. apply Z.gcd_eq_0_r in E. lia.
Qed.
Print Assumptions c61_composite.

Example c61_ex : let p := [13] in
  option_map (option_map (fun b => value p b)) (inverse p 129 (from_bigint p [5])) = Some (Some 8) /\
  inverse p 129 (from_bigint p [0]) = Some None /\
  inverse [15] 129 (from_bigint [15] [6]) = None.
Proof. split; [|split]; vm_compute; reflexivity. Qed.
