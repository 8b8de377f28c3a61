(** C57-C59: the multi-limb integers of the crypto library. *)
From Coq Require Import ZArith List Bool Lia.
From Verif Require Import Model.Uint Spec.Uint_spec Proofs.Uint_lemmas.
Import ListNotations.
Open Scope Z_scope.

(** * C57: exact arithmetic *)
Theorem c57_widening_mul a b : 0 <= a < 2 ^ 64 -> 0 <= b < 2 ^ 64 ->
  widening_mul a b = a * b /\ widening_mul_wasm a b = a * b.
Proof. intros. split; [apply widening_mul_eq|apply wasm_eq]; auto. Qed.
Print Assumptions c57_widening_mul.
Example c57_widening_mul_ex : widening_mul_wasm (2 ^ 64 - 1) (2 ^ 64 - 1) = (2 ^ 64 - 1) * (2 ^ 64 - 1).
Proof. reflexivity. Qed.

Theorem c57_add N a b : limbs N a -> limbs N b ->
  (let '(r, carry) := ct_checked_add a b in
   limbs N r /\ val r = (val a + val b) mod modulus N /\ (carry = true <-> modulus N <= val a + val b)) /\
  checked_add_assign a b = ct_checked_add a b /\
  ct_wrapping_add a b = fst (ct_checked_add a b) /\
  (forall r, ct_add a b = Some r <-> limbs N r /\ val r = val a + val b).
Proof.
  intros Ha Hb. rewrite modulus_Bp.
  destruct (ct_checked_add_ok N a b Ha Hb) as [H1 H2].
  destruct (add_assign_ok N a b false Ha Hb) as [H3 H4].
  destruct (ct_wrapping_add_ok N a b Ha Hb) as [H5 H6].
  pose proof (wrap_up N _ _ _ (val_bound _ _ H1) H2) as (W1 & W2 & _).
  cbn [Z.b2z] in H4. rewrite Z.add_0_r in H4.
  pose proof (wrap_up N _ _ _ (val_bound _ _ H3) H4) as (V1 & V2 & _).
  split; [|split; [|split]].
  - destruct (ct_checked_add a b) as [r c]. cbn [fst snd] in *. auto.
  - unfold checked_add_assign. rewrite (surjective_pairing (add_assign_loop _ _ _)), (surjective_pairing (ct_checked_add _ _)).
    f_equal; [apply (val_inj N); auto; congruence|]. apply eq_true_iff_eq. rewrite W2, V2. tauto.
  - apply (val_inj N); auto. congruence.
  - intros r. apply (ct_add_ok N a b r Ha Hb).
Qed.
Print Assumptions c57_add.
Example c57_add_ex : ct_checked_add [2 ^ 64 - 1; 2 ^ 64 - 1] [1; 0] = ([0; 0], true).
Proof. reflexivity. Qed.

Theorem c57_adc N a b c : limbs N a -> limbs N b -> 0 <= c < 2 ^ 64 ->
  let '(r, carry) := ct_adc a b c in
  limbs N r /\ 0 <= carry < 2 ^ 64 /\ val r + modulus N * carry = val a + val b + c.
Proof.
  intros Ha Hb Hc. rewrite modulus_Bp. pose proof (ct_adc_ok N a b c Ha Hb Hc) as H.
  destruct (ct_adc a b c). exact H.
Qed.
Print Assumptions c57_adc.

Theorem c57_sub N a b : limbs N a -> limbs N b ->
  (let '(r, borrow) := ct_checked_sub a b in
   limbs N r /\ val r = (val a - val b) mod modulus N /\ (borrow = true <-> val a < val b)) /\
  checked_sub_assign a b = ct_checked_sub a b /\
  ct_wrapping_sub a b = fst (ct_checked_sub a b).
Proof.
  intros Ha Hb. rewrite modulus_Bp.
  destruct (ct_checked_sub_ok N a b Ha Hb) as [H1 H2].
  destruct (sub_assign_ok N a b false Ha Hb) as [H3 H4].
  pose proof (wrap_down N _ _ _ (val_bound _ _ H1) H2) as (W1 & W2 & _).
  cbn [Z.b2z] in H4. rewrite Z.sub_0_r in H4.
  pose proof (wrap_down N _ _ _ (val_bound _ _ H3) H4) as (V1 & V2 & _).
  split; [|split].
  - destruct (ct_checked_sub a b) as [r c]. cbn [fst snd] in *. split; [auto|]. split; [auto|]. rewrite W2. lia.
  - unfold checked_sub_assign. rewrite (surjective_pairing (sub_assign_loop _ _ _)), (surjective_pairing (ct_checked_sub _ _)).
    f_equal; [apply (val_inj N); auto; congruence|]. apply eq_true_iff_eq. rewrite W2, V2. tauto.
  - reflexivity.
Qed.
Print Assumptions c57_sub.
Example c57_sub_ex : ct_checked_sub [0; 0] [1; 0] = ([2 ^ 64 - 1; 2 ^ 64 - 1], true) /\
  ct_checked_sub [0; 1] [1; 0] = ([2 ^ 64 - 1; 0], false).
Proof. split; reflexivity. Qed.

Theorem c57_double_halve N a : limbs N a ->
  (let '(r, carry) := ct_checked_mul2 a in
   limbs N r /\ val r = (2 * val a) mod modulus N /\ (carry = true <-> modulus N <= 2 * val a)) /\
  limbs N (div2 a) /\ val (div2 a) = val a / 2.
Proof.
  intros Ha. rewrite modulus_Bp. split; [|apply div2_ok; auto].
  destruct (ct_checked_mul2_ok N a Ha) as [H1 H2].
  pose proof (wrap_up N _ _ _ (val_bound _ _ H1) H2) as (W1 & W2 & _).
  destruct (ct_checked_mul2 a) as [r c]. auto.
Qed.
Print Assumptions c57_double_halve.
Example c57_double_halve_ex : ct_checked_mul2 [2 ^ 63 + 1; 2 ^ 63] = ([2; 1], true) /\ div2 [1; 3] = [2 ^ 63; 1].
Proof. split; reflexivity. Qed.

Theorem c57_compare N a b : limbs N a -> limbs N b ->
  ct_ge a b = (val b <=? val a) /\ ct_gt a b = (val b <? val a) /\
  ct_le a b = (val a <=? val b) /\ ct_lt a b = (val a <? val b) /\
  ct_eq a b = (val a =? val b) /\ ct_ne a b = negb (val a =? val b) /\
  ct_is_zero a = (val a =? 0) /\ cmp a b = (val a ?= val b) /\
  (val a = val b -> a = b).
Proof.
  intros Ha Hb. rewrite (ct_ge_ok N), (ct_gt_ok N), (ct_le_ok N), (ct_lt_ok N), (ct_is_zero_ok N), (cmp_ok N) by auto.
  unfold ct_ne. rewrite (ct_eq_ok N) by auto. repeat split. apply (val_inj N); auto.
Qed.
Print Assumptions c57_compare.
Example c57_compare_ex : ct_gt [0; 1] [2 ^ 64 - 1; 0] = true /\ ct_lt [1; 1] [0; 1] = false.
Proof. split; reflexivity. Qed.

Theorem c57_mul N a b : limbs N a -> limbs N b ->
  (let '(lo, hi) := ct_widening_mul a b in
   limbs N lo /\ limbs N hi /\ val lo + modulus N * val hi = val a * val b) /\
  (forall r, ct_mul a b = Some r <-> limbs N r /\ val r = val a * val b).
Proof.
  intros Ha Hb. rewrite modulus_Bp. split; [|intros r; apply ct_mul_ok; auto].
  pose proof (ct_widening_mul_ok N a b Ha Hb) as H. destruct (ct_widening_mul a b). exact H.
Qed.
Print Assumptions c57_mul.
Example c57_mul_ex : ct_widening_mul [2 ^ 64 - 1; 2 ^ 64 - 1] [2 ^ 64 - 1; 2 ^ 64 - 1] = ([1; 0], [2 ^ 64 - 2; 2 ^ 64 - 1]) /\
  ct_mul [0; 1] [0; 1] = None.
Proof. split; reflexivity. Qed.

Theorem c57_bits N a : limbs N a ->
  (forall i, 0 <= i -> ct_get_bit a i = Z.testbit (val a) i) /\
  bit_size (val a) (ct_num_bits a) /\
  ct_is_odd a = Z.odd (val a) /\ ct_is_even a = Z.even (val a).
Proof.
  intros Ha. split; [intros; apply (ct_get_bit_ok N); auto|].
  split; [|split; [apply ct_is_odd_ok|apply ct_is_even_ok]].
  rewrite (ct_num_bits_ok N) by auto. apply bit_length_spec; auto. apply (val_bound N); auto.
Qed.
Print Assumptions c57_bits.
Example c57_bits_ex : ct_num_bits [5; 1; 0] = 65 /\ ct_num_bits [0; 0; 0] = 0 /\ ct_get_bit [0; 2] 65 = true.
Proof. repeat split; reflexivity. Qed.

Theorem c57_bitwise N a b : limbs N a -> limbs N b ->
  (limbs N (bitxor a b) /\ val (bitxor a b) = Z.lxor (val a) (val b)) /\
  (limbs N (bitand a b) /\ val (bitand a b) = Z.land (val a) (val b)) /\
  (limbs N (bitor a b) /\ val (bitor a b) = Z.lor (val a) (val b)) /\
  (limbs N (bitnot a) /\ val (bitnot a) = modulus N - 1 - val a).
Proof.
  intros Ha Hb. rewrite modulus_Bp. split; [|split; [|split; [|apply bitnot_ok; auto]]].
  - apply (map2_ok Z.lxor xorb); auto; [intros; apply Z.lxor_spec|].
    intros. apply Z.lxor_nonneg. tauto.
  - apply (map2_ok Z.land andb); auto; [intros; apply Z.land_spec|].
    intros. apply Z.land_nonneg. tauto.
  - apply (map2_ok Z.lor orb); auto; [intros; apply Z.lor_spec|].
    intros. apply Z.lor_nonneg. tauto.
Qed.
Print Assumptions c57_bitwise.
Example c57_bitwise_ex : bitxor [5; 1] [3; 1] = [6; 0] /\ bitnot [0] = [2 ^ 64 - 1].
Proof. split; reflexivity. Qed.

(** * C58: remainder *)
(** The value zero underflows the bit index, so the full statement fails there. *)
Theorem c58_rem_zero_refuted : exists N lo hi m,
  (0 < N)%nat /\ limbs N lo /\ limbs N hi /\ limbs N m /\ 0 < val m /\
  ~ (exists r, ct_rem lo hi m = Some r /\ val r = (val lo + modulus N * val hi) mod val m).
Proof.
  exists 1%nat, [0], [0], [7]. split; [lia|].
  do 3 (split; [split; [reflexivity|repeat constructor; cbn; lia]|]).
  split; [cbn; lia|]. intros (r & E & _). discriminate.
Qed.
Print Assumptions c58_rem_zero_refuted.
Theorem c58_rem_nonzero_partial N lo hi m : (0 < N)%nat -> limbs N lo -> limbs N hi -> limbs N m ->
  0 < val lo + modulus N * val hi ->
  (0 < val m -> exists r, ct_rem lo hi m = Some r /\ limbs N r /\
                          val r = (val lo + modulus N * val hi) mod val m) /\
  (val m = 0 -> ct_rem lo hi m = None).
Proof.
  intros HN Hlo Hhi Hm Hw. rewrite modulus_Bp in *. split.
  - intros Hp. apply (ct_rem_ok N); auto.
  - intros E. unfold ct_rem. rewrite (ct_is_zero_ok N), E by auto. reflexivity.
Qed.
Print Assumptions c58_rem_nonzero_partial.
Theorem c58_wide_bits N lo hi : limbs N lo -> limbs N hi ->
  bit_size (val lo + modulus N * val hi) (wide_num_bits lo hi) /\
  (forall i, 0 <= i -> wide_get_bit lo hi i = Z.testbit (val lo + modulus N * val hi) i).
Proof.
  intros Hlo Hhi. rewrite modulus_Bp. split.
  - rewrite (wide_num_bits_ok N) by auto. apply bit_length_spec; [|reflexivity].
    pose proof (val_bound _ _ Hlo). pose proof (val_bound _ _ Hhi). pose proof (Bp_pos N). nia.
  - intros. apply wide_get_bit_ok; auto.
Qed.
Print Assumptions c58_wide_bits.
(** The top bit of the modulus set: the doubled remainder overflows the limbs. *)
Example c58_rem_ex : ct_rem [2 ^ 64 - 1] [2 ^ 64 - 2] [2 ^ 64 - 1] = Some [2 ^ 64 - 2] /\
  ct_rem [2 ^ 64 - 1] [2 ^ 64 - 1] [2 ^ 64 - 59] = Some [59 * 59 - 1].
Proof. split; vm_compute; reflexivity. Qed.

(** * C59: parsing and encoding *)
(** Leading zeros count against the capacity: a valid string of a small number is refused. *)
Theorem c59_leading_zeros_refuted : exists N s radix v,
  (0 < N)%nat /\ 2 <= radix <= 36 /\ s <> [] /\ denotes radix s v /\ 0 <= v < modulus N /\
  ~ (exists u, from_str_radix N s radix = Some u /\ val u = v).
Proof.
  exists 1%nat, (repeat 48 14), 36, 0. split; [lia|]. split; [lia|]. split; [discriminate|]. split.
  - apply denotes_rev. replace (rev (repeat 48 14)) with (repeat 48 14) by reflexivity.
    cut (forall n, ldenotes 36 (repeat 48 n) 0); [auto|]. induction n; cbn [repeat]; [constructor|].
    replace 0 with (0 + 36 * 0) by lia. constructor; auto. lia.
  - split; [cbn; lia|]. intros (u & E & _). apply (from_str_radix_ok 1) in E as (_ & E & _); [|lia|lia].
    cbv in E. discriminate.
Qed.
Print Assumptions c59_leading_zeros_refuted.
(** Exactly what both parsers accept, and what they return. *)
Theorem c59_from_str_radix_partial N s radix u : (0 < N)%nat -> 2 <= radix <= 36 ->
  from_str_radix N s radix = Some u <->
  s <> [] /\ radix ^ (Z.of_nat (length s) - 1) < modulus N /\ limbs N u /\ denotes radix s (val u).
Proof. rewrite modulus_Bp. apply from_str_radix_ok. Qed.
Print Assumptions c59_from_str_radix_partial.
Theorem c59_from_str_hex_partial N s u :
  from_str_hex N s = Some u <->
  s <> [] /\ (length s <= 16 * N)%nat /\ limbs N u /\ denotes 16 s (val u).
Proof. apply from_str_hex_ok. Qed.
Print Assumptions c59_from_str_hex_partial.
(** Without a leading zero, the only bound is that of the number itself. *)
Theorem c59_from_str_radix_canonical_partial N s radix v d c : (0 < N)%nat -> 2 <= radix <= 36 ->
  denotes radix (c :: s) v -> digit_value c = Some d -> 0 < d -> v < modulus N ->
  exists u, from_str_radix N (c :: s) radix = Some u /\ limbs N u /\ val u = v.
Proof.
  intros HN Hr Hd Hc Hpos Hv.
  assert (K : forall l w, denotes radix (c :: l) w -> radix ^ Z.of_nat (length l) <= w).
  { intros l. induction l as [|x l IH] using rev_ind; intros w H; inversion H as [|s' v' c' d' H1 H2 H3 E1 E2].
    - change (radix ^ Z.of_nat (length [])) with 1.
      destruct s' as [|? s']; [|destruct s'; discriminate]. cbn in E1. injection E1 as ->.
      assert (d' = d) by congruence. subst d'.
      inversion H1 as [E3|s' ? ? ? ? ? ? E3]; [lia|]. destruct s'; discriminate.
    - change (c :: l ++ [x]) with ((c :: l) ++ [x]) in E1. apply app_inj_tail in E1 as [-> ->].
      apply IH in H1. rewrite app_length. cbn [length]. rewrite Nat.add_1_r, Nat2Z.inj_succ, Z.pow_succ_r by lia.
      apply digit_value_bound in H2. nia. }
  assert (Hnn : 0 <= v) by (apply K in Hd; pose proof (Z.pow_nonneg radix (Z.of_nat (length s))); lia).
  assert (U : exists u, limbs N u /\ val u = v).
  { rewrite modulus_Bp in Hv. apply limbs_exist. auto. }
  destruct U as (u & Hu & Eu). exists u. split; [|auto].
  apply c59_from_str_radix_partial; auto. split; [discriminate|]. rewrite Eu. split; [|auto].
  apply K in Hd. cbn [length]. replace (Z.of_nat (S (length s)) - 1) with (Z.of_nat (length s)) by lia. lia.
Qed.
Print Assumptions c59_from_str_radix_canonical_partial.
Example c59_parse_ex : from_str_radix 1 [49; 50; 51] 10 = Some [123] /\ from_str_hex 2 [49; 70; 102] = Some [511; 0] /\
  from_str_radix 1 [49; 97] 10 = None.
Proof. repeat split; vm_compute; reflexivity. Qed.

Theorem c59_bytes N a : limbs N a ->
  ct_from_le_slice N (into_bytes_le a) = Some a /\
  length (into_bytes_le a) = (8 * N)%nat /\
  Forall (fun b => 0 <= b < 256) (into_bytes_le a) /\ bytes_value (into_bytes_le a) = val a.
Proof.
  intros Ha. unfold ct_from_le_slice. rewrite into_bytes_le_length, (limbs_len _ _ Ha), Nat.eqb_refl.
  rewrite le_limbs_bytes by auto. repeat split; auto using into_bytes_le_byte. apply (into_bytes_le_value N); auto.
Qed.
Print Assumptions c59_bytes.
Theorem c59_bytes_back N l : Forall (fun b => 0 <= b < 256) l ->
  (length l = (8 * N)%nat -> exists a, ct_from_le_slice N l = Some a /\ limbs N a /\ into_bytes_le a = l) /\
  (length l <> (8 * N)%nat -> ct_from_le_slice N l = None).
Proof.
  intros Hl. unfold ct_from_le_slice. split; intros E.
  - rewrite E, Nat.eqb_refl. eexists. split; [reflexivity|]. apply le_limbs_limbs; auto.
  - destruct (Nat.eqb_spec (length l) (8 * N)); [contradiction|auto].
Qed.
Print Assumptions c59_bytes_back.
Example c59_bytes_ex : into_bytes_le [258] = [2; 1; 0; 0; 0; 0; 0; 0].
Proof. reflexivity. Qed.

Theorem c59_bit_iterators N a : limbs N a ->
  bit_be_iter a = binary (64 * N) (val a) /\
  forall n, bit_size (val a) (Z.of_nat n) -> bit_be_trimmed_iter a = binary n (val a).
Proof.
  intros Ha. unfold bit_be_trimmed_iter. rewrite (bit_be_iter_ok N) by auto. split; [apply bits_be_binary|].
  intros n Hn. apply bit_length_spec in Hn; [|apply (val_bound N); auto].
  rewrite skip_zeros_bits.
  - rewrite <- Hn, Nat2Z.id. apply bits_be_binary.
  - replace (Z.of_nat (64 * N)) with (64 * Z.of_nat N) by lia. rewrite <- Bp_pow2. apply val_bound; auto.
Qed.
Print Assumptions c59_bit_iterators.
Example c59_bit_iterators_ex : bit_be_trimmed_iter [6; 0] = [true; true; false] /\ bit_be_trimmed_iter [0] = [].
Proof. split; reflexivity. Qed.

Theorem c59_from_primitives N v : (0 < N)%nat ->
  (0 <= v < 2 ^ 64 -> exists u, from_u64 N v = Some u /\ limbs N u /\ val u = v) /\
  (0 <= v < 2 ^ 128 -> forall u, from_u128 N v = Some u <-> limbs N u /\ val u = v).
Proof. intros HN. split; [apply from_u64_ok; auto|]. intros Hv u. apply from_u128_ok; auto. Qed.
Print Assumptions c59_from_primitives.
Example c59_from_primitives_ex : from_u128 1 (2 ^ 64) = None /\ from_u128 2 (2 ^ 64 + 3) = Some [3; 1].
Proof. split; reflexivity. Qed.
