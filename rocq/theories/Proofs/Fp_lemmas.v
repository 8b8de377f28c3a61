From Coq Require Import ZArith List Bool Lia Znumtheory Zpow_facts.
From Verif Require Import Model.Uint Model.Fp Spec.Uint_spec Spec.Fp_spec Proofs.Uint_lemmas.
Import ListNotations.
Open Scope Z_scope.

(** ** Splitting limb lists *)
Lemma val_split i l : (i <= length l)%nat -> val l = val (firstn i l) + Bp i * val (skipn i l).
Proof.
  intros H. rewrite <- (firstn_skipn i l) at 1. rewrite val_app, firstn_length, Nat.min_l by lia. auto.
Qed.
Lemma skipn_nth i (l : list Z) : (i < length l)%nat -> skipn i l = nth i l 0 :: skipn (S i) l.
Proof.
  revert i. induction l as [|x l IH]; intros i H; cbn in H; [lia|]. destruct i; [reflexivity|].
  cbn [skipn nth]. rewrite IH by lia. reflexivity.
Qed.
Lemma firstn_nth_S i (l : list Z) : (i < length l)%nat -> firstn (S i) l = firstn i l ++ [nth i l 0].
Proof.
  revert i. induction l as [|x l IH]; intros i H; cbn in H; [lia|]. destruct i; [reflexivity|].
  cbn [firstn nth app]. f_equal. apply IH. lia.
Qed.
Lemma limbs_firstn n l i : limbs n l -> (i <= n)%nat -> limbs i (firstn i l).
Proof.
  intros [H1 H2] Hi. split; [rewrite firstn_length; lia|]. rewrite <- (firstn_skipn i l) in H2.
  apply Forall_app in H2. tauto.
Qed.
Lemma limbs_skipn n l i : limbs n l -> limbs (n - i) (skipn i l).
Proof.
  intros [H1 H2]. split; [rewrite skipn_length; lia|]. rewrite <- (firstn_skipn i l) in H2.
  apply Forall_app in H2. tauto.
Qed.
Lemma nth_firstn_lt i q (l : list Z) : (q < i)%nat -> nth q (firstn i l) 0 = nth q l 0.
Proof.
  revert i q. induction l as [|x l IH]; intros i q H; destruct i; try lia; [reflexivity|].
  destruct q; [reflexivity|]. cbn [firstn nth]. apply IH. lia.
Qed.
Lemma firstn_ext_nth i (l l' : list Z) : length l = length l' ->
  (forall j, (j < i)%nat -> nth j l 0 = nth j l' 0) -> firstn i l = firstn i l'.
Proof.
  intros L H. apply (nth_ext _ _ 0 0); [rewrite !firstn_length; lia|]. intros n Hn. rewrite firstn_length in Hn.
  assert (E : forall k : list Z, (n < length k)%nat -> nth n (firstn i k) 0 = nth n k 0).
  { intros k Hk. rewrite <- (firstn_skipn i k) at 2. rewrite app_nth1; [auto|]. rewrite firstn_length. lia. }
  rewrite !E by lia. apply H. lia.
Qed.
Lemma mul_inner_low N a rhs : forall k lo hi c j, (j < k)%nat ->
  nth j (fst (fst (mul_inner N a rhs k lo hi c))) 0 = nth j lo 0.
Proof.
  induction rhs as [|b rhs IH]; intros k lo hi c j Hj; cbn [mul_inner]; [reflexivity|].
  destruct (N <=? k)%nat; destruct (carrying_mac _ _ _ _) as [x c1]; rewrite IH by lia; [auto|].
  apply upd_nth_other. lia.
Qed.

(** ** The Montgomery constant *)
Lemma inv_loop_ok m n k x : 0 <= m -> (n + k = 63)%nat -> (exists t, m * x = 1 + 2 ^ (Z.of_nat k + 1) * t) ->
  exists t, m * inv_loop m n x = 1 + B * t.
Proof.
  intros Hm. revert k x. induction n as [|n IH]; intros k x Hk [t Ht]; cbn [inv_loop].
  - exists t. rewrite Ht. replace (Z.of_nat k + 1) with 64 by lia. rewrite B_eq. auto.
  - apply (IH (S k)); [lia|].
    assert (E : exists q, u64 (u64 (x * x) * m) = x * x * m + B * q).
    { unfold u64. rewrite Z.mul_mod_idemp_l by (pose proof B_pos; lia).
      exists (- (x * x * m / B)). pose proof (Z.div_mod (x * x * m) B ltac:(pose proof B_pos; lia)). lia. }
    destruct E as [q ->].
    assert (P : B = 2 ^ (Z.of_nat (S k) + 1) * 2 ^ (63 - Z.of_nat (S k))).
    { rewrite <- Z.pow_add_r by lia. rewrite <- B_eq. f_equal. lia. }
    assert (P2 : 2 ^ (Z.of_nat (S k) + 1) = 2 * 2 ^ (Z.of_nat k + 1)).
    { rewrite <- Z.pow_succ_r by lia. f_equal. lia. }
    assert (P3 : 2 ^ (Z.of_nat k + 1) = 2 * 2 ^ Z.of_nat k).
    { rewrite <- Z.pow_succ_r by lia. f_equal. }
    exists (t + 2 ^ Z.of_nat k * t * t + 2 ^ (63 - Z.of_nat (S k)) * m * q).
    rewrite P. replace (m * (x * x * m + 2 ^ (Z.of_nat (S k) + 1) * 2 ^ (63 - Z.of_nat (S k)) * q))
      with ((m * x) * (m * x) + 2 ^ (Z.of_nat (S k) + 1) * (2 ^ (63 - Z.of_nat (S k)) * m * q)) by ring.
    rewrite Ht, P2, P3. ring.
Qed.
Lemma neg_inv m x t : m * x = 1 + B * t -> limb (u64 (- x)) /\ exists t, m * u64 (- x) = -1 + B * t.
Proof.
  intros Ht. pose proof B_pos. split; [apply Z.mod_pos_bound; auto|].
  unfold u64. pose proof (Z.div_mod (- x) B ltac:(lia)) as E.
  set (q := (- x) / B) in *. set (r := (- x) mod B) in *.
  exists (- t - m * q). replace r with (- x - B * q) by lia.
  replace (m * (- x - B * q)) with (- (m * x) - m * B * q) by ring.
  rewrite Ht. ring.
Qed.
Lemma odd_inv m : Z.odd m = true -> exists t, m * 1 = 1 + 2 ^ (Z.of_nat 0 + 1) * t.
Proof.
  intros Ho. rewrite Zodd_mod in Ho. apply Zeq_bool_eq in Ho. exists (m / 2). pose proof (Z.div_mod m 2).
  change (2 ^ (Z.of_nat 0 + 1)) with 2. lia.
Qed.
Lemma inv_ok m : 0 <= m -> Z.odd m = true -> limb (inv m) /\ exists t, m * inv m = -1 + B * t.
Proof.
  intros Hm Ho. destruct (inv_loop_ok m 63 0 1 Hm eq_refl (odd_inv m Ho)) as [t Ht]. exact (neg_inv m _ t Ht).
Qed.

#[global] Opaque inv.

(** ** Bit lists *)
Lemma bits_value_be v n : 0 <= v < 2 ^ Z.of_nat n -> forall e, fold_left (fun e (b : bool) => 2 * e + Z.b2z b) (bits_be n v) e = e * 2 ^ Z.of_nat n + v.
Proof.
  revert v. induction n as [|n IH]; intros v Hv e.
  - change (2 ^ Z.of_nat 0) with 1 in *. cbn [bits_be fold_left]. lia.
  - cbn [bits_be fold_left]. rewrite Nat2Z.inj_succ, Z.pow_succ_r in * by lia.
    assert (Hq : 0 < 2 ^ Z.of_nat n) by (apply Z.pow_pos_nonneg; lia).
    rewrite (bits_be_ext n v (v mod 2 ^ Z.of_nat n)) by (intros; rewrite Z.mod_pow2_bits_low by lia; auto).
    rewrite IH by (apply Z.mod_pos_bound; lia).
    pose proof (Z.div_mod v (2 ^ Z.of_nat n) ltac:(lia)) as E.
    assert (Eb : Z.b2z (Z.testbit v (Z.of_nat n)) = v / 2 ^ Z.of_nat n).
    { rewrite Z.testbit_spec' by lia. apply Z.mod_small. split; [apply Z.div_pos; lia|]. apply Z.div_lt_upper_bound; lia. }
    rewrite Eb. lia.
Qed.
Lemma bits_value_iter N e : limbs N e -> bits_value (bit_be_iter e) = val e.
Proof.
  intros He. unfold bits_value. rewrite (bit_be_iter_ok N) by auto. pose proof (val_bound _ _ He) as Hb. rewrite Bp_pow2 in Hb.
  rewrite bits_value_be; [lia|]. replace (Z.of_nat (64 * N)) with (64 * Z.of_nat N) by lia. auto.
Qed.
Lemma bits_value_trimmed N e : limbs N e -> bits_value (bit_be_trimmed_iter e) = val e.
Proof.
  intros He. rewrite <- (bits_value_iter N) by auto. unfold bit_be_trimmed_iter, bits_value.
  induction (bit_be_iter e) as [|[|] l IH]; cbn [skip_zeros]; auto.
Qed.


Section Field.
  Variable p : uint.
  Notation n := (length p).
  Notation P := (val p).
  Notation Bn := (Bp n).
  Hypothesis Hp : limbs n p.
  Hypothesis Hodd : Z.odd P = true.
  Hypothesis Hgt : 1 < P.

  Lemma n_pos : (0 < n)%nat.
  Proof. pose proof (val_bound _ _ Hp) as H. destruct n; [rewrite Bp_0 in H; lia|lia]. Qed.
  Lemma P_lt : P < Bn. Proof. apply val_bound; auto. Qed.
  Lemma p_cons : p = nth 0 p 0 :: tl p.
  Proof. pose proof n_pos. destruct p; [cbn in *; lia|reflexivity]. Qed.
  Lemma P_cons : P = nth 0 p 0 + B * val (tl p).
  Proof. rewrite p_cons at 1. apply val_cons. Qed.
  Lemma limbs_tl : limbs (n - 1) (tl p).
  Proof. replace (tl p) with (skipn 1 p) by (destruct p; reflexivity). apply limbs_skipn; auto. Qed.
  Lemma p0_odd : Z.odd (nth 0 p 0) = true.
  Proof.
    rewrite <- Hodd. rewrite P_cons. change B with (2 * 2 ^ 63). rewrite <- Z.mul_assoc, Z.odd_add_mul_2. auto.
  Qed.
  Lemma INV_ok : limb (INV p) /\ exists t, nth 0 p 0 * INV p = -1 + B * t.
  Proof. apply inv_ok; [apply (limbs_nth n); auto|apply p0_odd]. Qed.
  Lemma coprime_2 : rel_prime 2 P.
  Proof.
    apply prime_rel_prime; [apply prime_2|]. intros [k Hk]. rewrite Hk, Z.mul_comm, Z.odd_mul in Hodd. discriminate.
  Qed.
  Lemma coprime_pow2 k : 0 <= k -> rel_prime (2 ^ k) P.
  Proof. intros. apply rel_prime_sym, rel_prime_Zpower_r; auto. apply rel_prime_sym, coprime_2. Qed.
  Lemma coprime_Bn : rel_prime P Bn.
  Proof. rewrite Bp_pow2. apply rel_prime_sym, coprime_pow2. lia. Qed.
  Lemma cancel_Bn x : (P | x * Bn) -> (P | x).
  Proof. intros H. rewrite Z.mul_comm in H. apply (Gauss _ _ _ H coprime_Bn). Qed.
  Lemma cancel_2 x : (P | 2 * x) -> (P | x).
  Proof. intros H. apply (Gauss _ _ _ H). apply rel_prime_sym, coprime_2. Qed.
  Lemma divide_eq x y : 0 <= x < P -> 0 <= y < P -> (P | x - y) -> x = y.
  Proof. intros Hx Hy [k Hk]. assert (k = 0) by nia. subst. lia. Qed.

  (** The multiplier making the lowest limb vanish. *)
  Lemma mac_zero x : limb x ->
    let tmp := u64 (x * INV p) in
    limb tmp /\ limb (snd (mac x tmp (nth 0 p 0))) /\ x + tmp * nth 0 p 0 = B * snd (mac x tmp (nth 0 p 0)).
  Proof.
    intros Hx tmp. pose proof B_pos. assert (Ht : limb tmp) by (apply Z.mod_pos_bound; auto).
    destruct (mac_ok x tmp (nth 0 p 0) Hx Ht (limbs_nth _ _ 0 Hp)) as (M1 & M2 & M3).
    split; [auto|]. split; [auto|]. rewrite <- M3.
    assert (Z0 : fst (mac x tmp (nth 0 p 0)) = 0); [|lia].
    destruct INV_ok as [_ [t Ht']].
    assert (E : exists q, tmp = x * INV p + B * q).
    { unfold tmp, u64. exists (- (x * INV p / B)). pose proof (Z.div_mod (x * INV p) B). lia. }
    destruct E as [q Eq].
    assert (D : (B | fst (mac x tmp (nth 0 p 0)))).
    { exists (x * t + q * nth 0 p 0 - snd (mac x tmp (nth 0 p 0))).
      replace (fst (mac x tmp (nth 0 p 0))) with (x + tmp * nth 0 p 0 - B * snd (mac x tmp (nth 0 p 0))) by lia.
      rewrite Eq at 1. replace ((x * INV p + B * q) * nth 0 p 0) with (x * (nth 0 p 0 * INV p) + B * q * nth 0 p 0) by ring.
      rewrite Ht'. ring. }
    destruct D as [k Hk]. assert (k = 0) by nia. lia.
  Qed.

  (** ** Reduction of a double-width number *)
  Lemma wide_loop_ok T m : forall i lo hi c2 M, (i + m = n)%nat -> limbs n lo -> limbs n hi -> 0 <= c2 <= 1 ->
    0 <= M < Bp i ->
    Bp i * val (skipn i lo) + Bn * val hi + Bn * Bp i * c2 = T + M * P ->
    let '(hi', c2') := wide_reduction_loop p m i lo hi c2 in
    limbs n hi' /\ 0 <= c2' <= 1 /\ exists M', 0 <= M' < Bn /\ Bn * (val hi' + Bn * c2') = T + M' * P.
  Proof.
    induction m as [|m IH]; intros i lo hi c2 M Hi Hlo Hhi Hc2 HM E; cbn [wide_reduction_loop].
    - rewrite Nat.add_0_r in Hi. subst i. split; [auto|]. split; [auto|]. exists M. split; [auto|].
      rewrite <- E. rewrite skipn_all2 by (rewrite (limbs_len _ _ Hlo); lia). cbn [val]. ring.
    - pose proof (limbs_len _ _ Hlo) as Llo. pose proof (limbs_len _ _ Hhi) as Lhi. pose proof n_pos as Hn.
      pose proof (limbs_nth _ _ i Hlo) as Hx.
      destruct (mac_zero _ Hx) as (T1 & T2 & T3). set (tmp := u64 (nth i lo 0 * INV p)) in *.
      destruct (mac (nth i lo 0) tmp (nth 0 p 0)) as [z c]. cbn [fst snd] in *.
      destruct limbs_tl as [Ltl Ftl].
      pose proof (mul_inner_ok n tmp (tl p) T1 Ftl (i + 1) lo hi c Hlo Hhi T2 ltac:(lia)) as MI.
      pose proof (mul_inner_low n tmp (tl p) (i + 1) lo hi c) as ML.
      unfold N. destruct (mul_inner n tmp (tl p) (i + 1) lo hi c) as [[lo' hi1] c'].
      destruct MI as (I1 & I2 & I3 & I4 & _). cbn [fst] in ML.
      pose proof (limbs_len _ _ I1) as Llo'. pose proof (limbs_len _ _ I2) as Lhi1.
      assert (0 <= c2 < B) by (assert (3 < B) by reflexivity; lia).
      destruct (adc_ok (nth i hi1 0) c' c2 (limbs_nth _ _ i I2)) as (A1 & A2 & A3); auto.
      pose proof (limbs_nth _ _ i I2) as Hh1.
      destruct (adc (nth i hi1 0) c' c2) as [x c2']. cbn [fst snd] in *.
      apply (IH (S i) lo' (upd hi1 i x) c2' (M + Bp i * tmp)).
      + lia.
      + auto.
      + apply upd_limbs; auto.
      + nia.
      + rewrite Bp_S. pose proof (Bp_pos i). nia.
      + rewrite upd_val by lia.
        assert (F1 : firstn (S i) lo' = firstn (S i) lo) by (apply firstn_ext_nth; [lia|]; intros; apply ML; lia).
        pose proof (val_split (S i) lo' ltac:(lia)) as V1. pose proof (val_split i lo ltac:(lia)) as V2.
        rewrite F1, firstn_nth_S, val_app, firstn_length, Nat.min_l in V1 by lia.
        cbn [val] in V1. rewrite Z.mul_0_r, Z.add_0_r in V1.
        replace (i + 1 + length (tl p))%nat with (n + i)%nat in I4 by lia.
        rewrite Bp_add in I4. replace (i + 1)%nat with (S i) in I4 by lia. rewrite Bp_S in *.
        rewrite P_cons.
        replace (B * Bp i * val (skipn (S i) lo')) with (val lo' - val (firstn i lo) - Bp i * nth i lo 0) by lia.
        assert (Ex : x = nth i hi1 0 + c' + c2 - B * c2') by lia. rewrite Ex.
        replace (val lo' - val (firstn i lo) - Bp i * nth i lo 0 +
          Bn * (val hi1 + (nth i hi1 0 + c' + c2 - B * c2' - nth i hi1 0) * Bp i) + Bn * (B * Bp i) * c2')
          with ((val lo' + Bn * val hi1 + Bn * Bp i * c') - val (firstn i lo) - Bp i * nth i lo 0 + Bn * Bp i * c2) by ring.
        rewrite I4, V2.
        replace (T + (M + Bp i * tmp) * (nth 0 p 0 + B * val (tl p)))
          with ((T + M * (nth 0 p 0 + B * val (tl p))) + Bp i * tmp * (nth 0 p 0 + B * val (tl p))) by ring.
        rewrite <- P_cons, <- E, P_cons.
        assert (Ec : Bp i * (B * c) = Bp i * (nth i lo 0 + tmp * nth 0 p 0)) by (rewrite T3; ring).
        replace (B * Bp i * (tmp * val (tl p) + c)) with (B * Bp i * tmp * val (tl p) + Bp i * (B * c)) by ring.
        rewrite Ec. ring.
  Qed.

  (** ** The conditional subtraction *)
  Lemma top_limb : val p = val (firstn (n - 1) p) + Bp (n - 1) * nth (n - 1) p 0.
  Proof.
    pose proof n_pos. rewrite (val_split (n - 1) p) at 1 by lia. rewrite skipn_nth by lia.
    replace (S (n - 1)) with n by lia. rewrite skipn_all. cbn [val]. ring.
  Qed.
  Lemma Bn_half : Bn = 2 * (2 ^ 63 * Bp (n - 1)).
  Proof. pose proof n_pos. replace n with (S (n - 1)) at 1 by lia. rewrite Bp_S. change B with (2 * 2 ^ 63). ring. Qed.
  Lemma spare_ok : HAS_MODULUS_SPARE_BIT p = true -> 2 * P < Bn.
  Proof.
    unfold HAS_MODULUS_SPARE_BIT, N. intros H. apply Z.eqb_eq in H. rewrite Z.shiftr_div_pow2 in H by lia.
    pose proof (limbs_nth _ _ (n - 1) Hp) as Ht. pose proof n_pos.
    pose proof (val_bound _ _ (limbs_firstn _ _ (n - 1) Hp ltac:(lia))) as Hf.
    assert (nth (n - 1) p 0 < 2 ^ 63).
    { pose proof (Z.div_mod (nth (n - 1) p 0) (2 ^ 63) ltac:(lia)).
      pose proof (Z.mod_pos_bound (nth (n - 1) p 0) (2 ^ 63) ltac:(lia)). lia. }
    rewrite Bn_half, top_limb. nia.
  Qed.
  Definition reduce_once (x : uint) (c : bool) :=
    if HAS_MODULUS_SPARE_BIT p then ct_subtract_modulus p x else ct_carrying_sub_modulus p x c.
  Lemma reduce_once_ok x c t : limbs n x -> val x + Bn * Z.b2z c = t -> t < 2 * P ->
    element p (reduce_once x c) /\ val (reduce_once x c) = t mod P.
  Proof.
    intros Hx E Ht. pose proof (val_bound _ _ Hx) as Bx. pose proof P_lt.
    assert (Hr : forall y, y = (if P <=? t then ct_wrapping_sub x p else x) -> element p y /\ val y = t mod P).
    { intros y ->. destruct (ct_wrapping_sub_ok n x p Hx Hp) as [S1 S2].
      assert (0 <= Z.b2z c <= 1) by (destruct c; cbn; lia).
      destruct (Z.leb_spec P t).
      - assert (Ev : val (ct_wrapping_sub x p) = t - P).
        { rewrite S2. symmetry. apply (Z.mod_unique_pos _ _ (- Z.b2z c)); nia. }
        split; [split; [auto|lia]|]. rewrite Ev. apply (Z.mod_unique_pos _ _ 1); lia.
      - assert (Z.b2z c = 0) by nia. assert (Ev : val x = t) by lia.
        split; [split; [auto|lia]|]. rewrite Ev. symmetry. apply Z.mod_small. lia. }
    apply Hr. unfold reduce_once, ct_subtract_modulus, ct_carrying_sub_modulus, is_ge_modulus.
    rewrite (ct_ge_ok n) by auto. destruct (HAS_MODULUS_SPARE_BIT p) eqn:Es.
    - pose proof (spare_ok Es). assert (c = false) by (destruct c; cbn in E; [lia|auto]). subst c.
      cbn [Z.b2z] in E. replace t with (val x) by lia. auto.
    - destruct c; cbn [Z.b2z orb] in *.
      + destruct (Z.leb_spec P t); [auto|lia].
      + replace t with (val x) by lia. auto.
  Qed.

  Lemma elt_bound x : element p x -> limbs n x /\ 0 <= val x < P.
  Proof. intros [H1 H2]. split; [auto|]. pose proof (val_bound _ _ H1). lia. Qed.

  (** ** Addition, subtraction, negation: on representations *)
  Lemma add_rep x y : element p x -> element p y -> element p (add p x y) /\ val (add p x y) = (val x + val y) mod P.
  Proof.
    intros Hx Hy. apply elt_bound in Hx as [Hx Bx], Hy as [Hy By].
    destruct (add_assign_ok n x y false Hx Hy) as [A1 A2]. cbn [Z.b2z] in A2.
    unfold add, checked_add_assign. destruct (add_assign_loop x y false) as [s c]. cbn [fst snd] in *.
    apply (reduce_once_ok s c); auto; lia.
  Qed.
  Lemma double_rep x : element p x -> element p (double p x) /\ val (double p x) = (2 * val x) mod P.
  Proof.
    intros Hx. apply elt_bound in Hx as [Hx Bx].
    destruct (ct_checked_mul2_ok n x Hx) as [A1 A2]. unfold double.
    destruct (ct_checked_mul2 x) as [s c]. cbn [fst snd] in *. apply (reduce_once_ok s c); auto; lia.
  Qed.
  Lemma sub_rep x y : element p x -> element p y -> element p (sub p x y) /\ val (sub p x y) = (val x - val y) mod P.
  Proof.
    intros Hx Hy. apply elt_bound in Hx as [Hx Bx], Hy as [Hy By]. pose proof P_lt.
    unfold sub. rewrite (ct_gt_ok n) by auto.
    destruct (Z.ltb_spec (val x) (val y)).
    - destruct (add_assign_ok n x p false Hx Hp) as [A1 A2]. unfold checked_add_assign. cbn [Z.b2z] in A2.
      set (s := fst (add_assign_loop x p false)) in *. set (c := snd (add_assign_loop x p false)) in *.
      destruct (sub_assign_ok n s y false A1 Hy) as [S1 S2]. unfold checked_sub_assign. cbn [Z.b2z] in S2.
      set (r := fst (sub_assign_loop s y false)) in *. set (b := snd (sub_assign_loop s y false)) in *.
      pose proof (val_bound _ _ S1).
      assert (Er : val r = val x + P - val y).
      { destruct b, c; cbn [Z.b2z] in *; lia. }
      split; [split; [auto|lia]|]. rewrite Er. apply (Z.mod_unique_pos _ _ (-1)); lia.
    - destruct (sub_assign_ok n x y false Hx Hy) as [S1 S2]. unfold checked_sub_assign. cbn [Z.b2z] in S2.
      set (r := fst (sub_assign_loop x y false)) in *. set (b := snd (sub_assign_loop x y false)) in *.
      pose proof (val_bound _ _ S1).
      assert (Er : val r = val x - val y).
      { destruct b; cbn [Z.b2z] in *; lia. }
      split; [split; [auto|lia]|]. rewrite Er. symmetry. apply Z.mod_small. lia.
  Qed.
  Lemma is_zero_ok x : limbs n x -> is_zero p x = (val x =? 0).
  Proof. intros. unfold is_zero, fp_ZERO, N. rewrite (ct_eq_ok n) by (auto using limbs_ZERO). rewrite val_ZERO. auto. Qed.
  Lemma neg_rep x : element p x -> element p (neg p x) /\ val (neg p x) = (- val x) mod P.
  Proof.
    intros Hx. apply elt_bound in Hx as [Hx Bx]. pose proof P_lt. unfold neg. rewrite is_zero_ok by auto.
    destruct (Z.eqb_spec (val x) 0) as [E|E]; cbn [negb].
    - split; [split; [auto|lia]|]. rewrite E. reflexivity.
    - destruct (sub_assign_ok n p x false Hp Hx) as [S1 S2]. unfold checked_sub_assign. cbn [Z.b2z] in S2.
      set (r := fst (sub_assign_loop p x false)) in *. set (b := snd (sub_assign_loop p x false)) in *.
      pose proof (val_bound _ _ S1).
      assert (Er : val r = P - val x).
      { destruct b; cbn [Z.b2z] in *; lia. }
      split; [split; [auto|lia]|]. rewrite Er. apply (Z.mod_unique_pos _ _ (-1)); lia.
  Qed.
  Lemma zero_elt : element p (fp_ZERO p).
  Proof. split; [apply limbs_ZERO|]. unfold fp_ZERO. rewrite val_ZERO. lia. Qed.

  (** ** Multiplication *)
  Lemma mul_rep x y : limbs n x -> limbs n y -> val x * val y < Bn * P ->
    element p (mul p x y) /\ (P | val (mul p x y) * Bn - val x * val y).
  Proof.
    intros Hx Hy Hlt. destruct (ct_widening_mul_ok n x y Hx Hy) as (W1 & W2 & W3). unfold mul.
    destruct (ct_widening_mul x y) as [lo hi]. cbn [fst snd] in *.
    pose proof (wide_loop_ok (val x * val y) n 0 lo hi 0 0) as L. unfold widening_montgomery_reduction, N.
    destruct (wide_reduction_loop p n 0 lo hi 0) as [hi' c2].
    pose proof (Bp_pos n) as HB.
    destruct L as (L1 & L2 & M & L3 & L4); auto; try lia.
    { rewrite Bp_0. lia. }
    { rewrite Bp_0. cbn [skipn]. lia. }
    pose proof (b2z_carry c2 L2) as Ec.
    destruct (reduce_once_ok hi' (negb (c2 =? 0)) (val hi' + Bn * c2)) as [R1 R2]; auto.
    - rewrite Ec. auto.
    - nia.
    - split; [apply R1|]. change (if HAS_MODULUS_SPARE_BIT p then ct_subtract_modulus p hi'
        else ct_carrying_sub_modulus p hi' (negb (c2 =? 0))) with (reduce_once hi' (negb (c2 =? 0))).
      rewrite R2. set (t := val hi' + Bn * c2) in *. pose proof (Z.div_mod t P ltac:(lia)) as Ed.
      exists (M - Bn * (t / P)). replace (t mod P) with (t - P * (t / P)) by lia.
      replace ((t - P * (t / P)) * Bn) with (Bn * t - P * (t / P) * Bn) by ring. rewrite L4. ring.
  Qed.

  (** ** Constants *)
  Lemma val_MAX k : val (MAX k) = Bp k - 1.
  Proof. unfold MAX. induction k; [reflexivity|]. cbn [repeat]. rewrite val_cons, IHk, Bp_S. ring. Qed.
  Lemma limbs_MAX k : limbs k (MAX k).
  Proof.
    unfold MAX. pose proof B_pos. split; [apply repeat_length|]. apply Forall_forall. intros x H'. apply repeat_spec in H'.
    subst. rewrite B_eq. lia.
  Qed.
  Lemma limbs_ONE k : limbs k (ONE k).
  Proof. destruct k; [apply limbs_nil|]. cbn [ONE]. apply limbs_cons; [split; [lia|reflexivity]|]. apply limbs_ZERO. Qed.
  Lemma val_ONE k : (0 < k)%nat -> val (ONE k) = 1.
  Proof. intros. destruct k; [lia|]. cbn [ONE]. rewrite val_cons, val_repeat0. lia. Qed.
  Lemma const_ok hi e : limbs n hi -> (Bn - 1) + Bn * val hi = Bp e - 1 ->
    exists r, ct_rem (MAX n) hi p = Some r /\ element p (ct_wrapping_add r (ONE n)) /\
      val (ct_wrapping_add r (ONE n)) = Bp e mod P.
  Proof.
    intros Hh He. pose proof n_pos as Hn. pose proof P_lt. pose proof (val_bound _ _ Hh).
    destruct (ct_rem_ok n (MAX n) hi p Hn (limbs_MAX n) Hh Hp) as (r & E1 & E2 & E3); [|lia|].
    { unfold wval. rewrite val_MAX. nia. }
    exists r. split; [auto|]. unfold wval in E3. rewrite val_MAX, He in E3.
    destruct (ct_wrapping_add_ok n r (ONE n) E2 (limbs_ONE n)) as [W1 W2].
    rewrite val_ONE, E3 in W2 by auto.
    pose proof (Z.mod_pos_bound (Bp e - 1) P ltac:(lia)) as Hb. pose proof (Z.div_mod (Bp e - 1) P ltac:(lia)) as Ed.
    set (m := (Bp e - 1) mod P) in *. set (q := (Bp e - 1) / P) in *.
    assert (m + 1 <> P).
    { intros Em. assert (D : (P | Bp e)) by (exists (q + 1); lia).
      assert (rel_prime P (Bp e)) as G by (rewrite Bp_pow2; apply rel_prime_sym, coprime_pow2; lia).
      destruct G as [_ _ G]. specialize (G P (Z.divide_refl P) D). apply Z.divide_1_r_nonneg in G; lia. }
    rewrite Z.mod_small in W2 by lia. split; [split; [auto|lia]|]. rewrite W2.
    apply (Z.mod_unique_pos _ _ q); lia.
  Qed.
  Lemma R_ok : element p (R p) /\ val (R p) = Bn mod P.
  Proof.
    unfold R, N. destruct (const_ok (ZERO n) n) as (r & E1 & E2 & E3); [apply limbs_ZERO|rewrite val_ZERO; lia|].
    rewrite E1. auto.
  Qed.
  Lemma R2_ok : element p (R2 p) /\ val (R2 p) = (Bn * Bn) mod P.
  Proof.
    unfold R2, N. destruct (const_ok (MAX n) (n + n)) as (r & E1 & E2 & E3); [apply limbs_MAX|rewrite val_MAX, Bp_add; ring|].
    rewrite E1. rewrite Bp_add in E3. auto.
  Qed.

  (** ** Reduction in place *)
  Definition rot (i : nat) (l : list Z) := skipn i l ++ firstn i l.
  Lemma rot_length i l : length (rot i l) = length l.
  Proof. unfold rot. rewrite app_length, skipn_length, firstn_length. lia. Qed.
  Lemma mod_cases j i m : (i < m)%nat -> (j < m)%nat -> ((j + i) mod m = if Nat.ltb (j + i) m then j + i else j + i - m)%nat.
  Proof.
    intros Hi Hj. destruct (Nat.ltb_spec (j + i) m); [apply Nat.mod_small; auto|].
    symmetry. apply (Nat.mod_unique _ _ 1); lia.
  Qed.
  Lemma rot_nth i l j : (i < length l)%nat -> (j < length l)%nat -> nth j (rot i l) 0 = nth ((j + i) mod length l) l 0.
  Proof.
    intros Hi Hj. rewrite mod_cases by auto. unfold rot. destruct (Nat.ltb_spec (j + i) (length l)).
    - rewrite app_nth1 by (rewrite skipn_length; lia).
      rewrite <- (firstn_skipn i l) at 2. rewrite app_nth2 by (rewrite firstn_length; lia).
      rewrite firstn_length, Nat.min_l by lia. f_equal. lia.
    - rewrite app_nth2 by (rewrite skipn_length; lia). rewrite skipn_length.
      rewrite nth_firstn_lt by lia. f_equal. lia.
  Qed.
  Lemma rot_upd i l j x : (i < length l)%nat -> (j < length l)%nat ->
    rot i (upd l ((j + i) mod length l) x) = upd (rot i l) j x.
  Proof.
    intros Hi Hj. apply (nth_ext _ _ 0 0); [rewrite upd_length, !rot_length, upd_length; auto|].
    intros q Hq. rewrite rot_length, upd_length in Hq. rewrite rot_nth by (rewrite upd_length; auto). rewrite upd_length.
    assert (Hm : ((j + i) mod length l < length l)%nat) by (apply Nat.mod_upper_bound; lia).
    destruct (Nat.eq_dec q j) as [->|Hne].
    - rewrite !upd_nth_same by (rewrite ?rot_length; auto). auto.
    - rewrite !upd_nth_other, rot_nth by (auto; rewrite !mod_cases by auto;
        destruct (Nat.ltb_spec (j + i) (length l)), (Nat.ltb_spec (q + i) (length l)); lia). auto.
  Qed.
  Lemma rot_limbs i l : limbs n l -> limbs n (rot i l).
  Proof.
    intros [H1 H2]. split; [rewrite rot_length; auto|]. unfold rot. rewrite <- (firstn_skipn i l) in H2.
    apply Forall_app in H2. apply Forall_app. tauto.
  Qed.
  Lemma reduction_inner_ok k ps : limb k -> Forall (fun x => limb x) ps -> forall j i l c,
    (i < n)%nat -> (0 < j)%nat -> (j + length ps <= n)%nat -> limbs n l -> limb c ->
    let '(l', c') := reduction_inner p k ps j i l c in
    limbs n l' /\ limb c' /\
    val (rot i l') + Bp (j + length ps) * c' = val (rot i l) + Bp j * (k * val ps + c) /\
    nth i l' 0 = nth i l 0.
  Proof.
    intros Hk. induction 1 as [|m ps Hm H IH]; intros j i l c Hi Hj Hjn Hl Hc; cbn [reduction_inner length] in *.
    - rewrite Nat.add_0_r. cbn [val]. split; [auto|]. split; [auto|]. split; [ring|auto].
    - pose proof (limbs_len _ _ Hl) as Ll. unfold N.
      destruct (carrying_mac_ok (nth ((j + i) mod n) l 0) k m c) as (H1 & H2 & H3); auto; [eapply limbs_nth; eauto|].
      destruct (carrying_mac _ _ _ _) as [x c1]. cbn [fst snd] in *.
      specialize (IH (S j) i (upd l ((j + i) mod n) x) c1 Hi ltac:(lia) ltac:(lia) (upd_limbs _ _ _ _ Hl H1) H2).
      destruct (reduction_inner p k ps (S j) i (upd l ((j + i) mod n) x) c1) as [l' c'].
      destruct IH as (I1 & I2 & I3 & I4). split; [auto|]. split; [auto|]. split.
      + replace (j + S (length ps))%nat with (S j + length ps)%nat by lia. rewrite I3.
        replace n with (length l) at 1. rewrite rot_upd by lia. rewrite upd_val by (rewrite rot_length; lia).
        rewrite rot_nth by lia. rewrite val_cons, Bp_S. rewrite Ll.
        replace x with (nth ((j + i) mod n) l 0 + k * m + c - B * c1) by lia. ring.
      + rewrite I4. apply upd_nth_other. rewrite mod_cases by lia. destruct (Nat.ltb_spec (j + i) n); lia.
  Qed.
  Lemma reduction_loop_ok V m : forall i l M, (i + m = n)%nat -> limbs n l -> 0 <= M < Bp i ->
    Bp i * val (rot i l) = V + M * P ->
    limbs n (reduction_loop p m i l) /\ exists M', 0 <= M' < Bn /\ Bn * val (reduction_loop p m i l) = V + M' * P.
  Proof.
    induction m as [|m IH]; intros i l M Hi Hl HM E; cbn [reduction_loop].
    - rewrite Nat.add_0_r in Hi. subst i. split; [auto|]. exists M. split; [auto|]. rewrite <- E. f_equal.
      unfold rot. pose proof (limbs_len _ _ Hl) as Ll. rewrite skipn_all2, firstn_all2 by lia. auto.
    - pose proof (limbs_len _ _ Hl) as Ll. pose proof n_pos as Hn.
      destruct (mac_zero _ (limbs_nth _ _ i Hl)) as (T1 & T2 & T3). set (k := u64 (nth i l 0 * INV p)) in *.
      destruct (mac (nth i l 0) k (nth 0 p 0)) as [z c]. cbn [fst snd] in *.
      destruct limbs_tl as [Ltl Ftl].
      pose proof (reduction_inner_ok k (tl p) T1 Ftl 1 i l c ltac:(lia) ltac:(lia) ltac:(lia) Hl T2) as RI.
      destruct (reduction_inner p k (tl p) 1 i l c) as [l' c']. destruct RI as (I1 & I2 & I3 & I4).
      pose proof (limbs_len _ _ I1) as Ll'. unfold N. rewrite Nat.mod_small by lia.
      assert (Er : rot (S i) (upd l' i c') = tl (rot i l') ++ [c']).
      { unfold rot. rewrite (skipn_nth i l') by lia. cbn [app tl].
        assert (Es : skipn (S i) (upd l' i c') = skipn (S i) l').
        { clear. revert i. induction l'; destruct i; cbn; auto. apply IHl'. }
        rewrite Es, <- app_assoc. f_equal. rewrite firstn_nth_S by (rewrite upd_length; lia).
        rewrite upd_nth_same by lia. f_equal. apply firstn_ext_nth; [rewrite upd_length; auto|].
        intros. apply upd_nth_other. lia. }
      assert (Ev : B * val (rot (S i) (upd l' i c')) = val (rot i l) + k * P).
      { rewrite Er, val_app. assert (Lr : length (tl (rot i l')) = (n - 1)%nat).
        { pose proof (rot_length i l') as Lr. destruct (rot i l'); cbn in *; lia. }
        rewrite Lr. cbn [val]. rewrite Z.mul_0_r, Z.add_0_r.
        assert (Hd : val (rot i l') = nth i l' 0 + B * val (tl (rot i l'))).
        { unfold rot. rewrite (skipn_nth i l') by lia. cbn [app tl]. apply val_cons. }
        replace (1 + length (tl p))%nat with n in I3 by lia.
        change 1%nat with (S 0) in I3. rewrite (Bp_S 0), Bp_0 in I3.
        assert (EB : Bn = B * Bp (n - 1)) by (rewrite <- Bp_S; f_equal; lia).
        rewrite EB in I3. rewrite P_cons. rewrite I4 in Hd.
        replace (B * (val (tl (rot i l')) + Bp (n - 1) * c')) with ((val (rot i l') + B * Bp (n - 1) * c') - nth i l 0) by lia.
        rewrite I3. replace (B * 1 * (k * val (tl p) + c)) with (B * k * val (tl p) + B * c) by ring.
        rewrite <- T3. ring. }
      apply (IH (S i) (upd l' i c') (M + Bp i * k)); [lia|apply upd_limbs; auto| |].
      + rewrite Bp_S. pose proof (Bp_pos i). nia.
      + rewrite Bp_S. replace (B * Bp i * val (rot (S i) (upd l' i c'))) with (Bp i * (B * val (rot (S i) (upd l' i c')))) by ring.
        rewrite Ev. rewrite Z.mul_add_distr_l, E. ring.
  Qed.
  Definition as_Z (x : uint) : Z := val (into_bigint p x).
  Lemma into_ok x : element p x -> limbs n (into_bigint p x) /\ 0 <= as_Z x < P /\ (P | as_Z x * Bn - val x).
  Proof.
    intros Hx. apply elt_bound in Hx as [Hx Bx]. unfold as_Z, into_bigint, montgomery_reduction, N.
    pose proof (Bp_pos n) as HB.
    destruct (reduction_loop_ok (val x) n 0 x 0) as (L1 & M & L2 & L3); auto; [rewrite Bp_0; lia| |].
    { rewrite Bp_0. unfold rot. cbn [skipn firstn]. rewrite app_nil_r. lia. }
    split; [auto|]. pose proof (val_bound _ _ L1). split; [nia|]. exists M. rewrite Z.mul_comm, L3. ring.
  Qed.
  Lemma into_unique x y : element p x -> 0 <= y < P -> (P | y * Bn - val x) -> as_Z x = y.
  Proof.
    intros Hx Hy [k Hk]. destruct (into_ok x Hx) as (_ & H1 & [j Hj]). apply divide_eq; auto.
    apply cancel_Bn. exists (j - k). lia.
  Qed.
  Lemma as_Z_mod x y : element p x -> (P | y * Bn - val x) -> as_Z x = y mod P.
  Proof.
    intros Hx [k Hk]. apply into_unique; [auto|apply Z.mod_pos_bound; lia|].
    pose proof (Z.div_mod y P ltac:(lia)). exists (k - Bn * (y / P)).
    replace (y mod P) with (y - P * (y / P)) by lia. lia.
  Qed.
  Lemma as_Z_inj x y : element p x -> element p y -> as_Z x = as_Z y -> x = y.
  Proof.
    intros Hx Hy E. destruct (into_ok x Hx) as (_ & H1 & [j Hj]). destruct (into_ok y Hy) as (_ & H2 & [k Hk]).
    apply elt_bound in Hx as [Hx Bx], Hy as [Hy By]. apply (val_inj n); auto. apply divide_eq; auto.
    exists (k - j). rewrite E in Hj. lia.
  Qed.
  Lemma mod_divide a : (P | a - a mod P).
  Proof. exists (a / P). pose proof (Z.div_mod a P ltac:(lia)). lia. Qed.

  Lemma from_ok num : limbs n num -> element p (from_bigint p num) /\ as_Z (from_bigint p num) = val num mod P.
  Proof.
    intros Hn. unfold from_bigint. rewrite is_zero_ok by auto. pose proof (val_bound _ _ Hn).
    destruct (Z.eqb_spec (val num) 0) as [E|E].
    - assert (He : element p num) by (split; [auto|lia]). split; [auto|]. rewrite E.
      apply as_Z_mod; [auto|]. rewrite E. exists 0. lia.
    - destruct R2_ok as [R1 R3]. pose proof (elt_bound _ R1) as [R4 R5].
      destruct (mul_rep num (R2 p)) as [M1 [k M2]]; auto; [nia|]. split; [auto|]. apply as_Z_mod; [auto|].
      apply cancel_Bn. destruct (mod_divide (Bn * Bn)) as [j Hj]. rewrite <- R3 in Hj.
      exists (val num * j - k). replace (val (R2 p)) with (Bn * Bn - j * P) in M2 by lia.
      replace ((val num * Bn - val (mul p num (R2 p))) * Bn) with (val num * (Bn * Bn) - val (mul p num (R2 p)) * Bn) by ring.
      replace (val (mul p num (R2 p)) * Bn) with (val num * (Bn * Bn - j * P) + k * P) by lia. ring.
  Qed.
  Lemma from_into x : element p x -> from_bigint p (into_bigint p x) = x.
  Proof.
    intros Hx. destruct (into_ok x Hx) as (H1 & H2 & _). destruct (from_ok _ H1) as [F1 F2].
    apply as_Z_inj; auto. rewrite F2. apply Z.mod_small. auto.
  Qed.
  Lemma add_ok x y : element p x -> element p y -> element p (add p x y) /\ as_Z (add p x y) = (as_Z x + as_Z y) mod P.
  Proof.
    intros Hx Hy. destruct (add_rep x y Hx Hy) as [A1 A2]. split; [auto|]. apply as_Z_mod; [auto|].
    destruct (into_ok x Hx) as (_ & _ & [i Hi]). destruct (into_ok y Hy) as (_ & _ & [j Hj]).
    destruct (mod_divide (val x + val y)) as [k Hk]. rewrite <- A2 in Hk. exists (i + j + k). lia.
  Qed.
  Lemma double_ok x : element p x -> element p (double p x) /\ as_Z (double p x) = (2 * as_Z x) mod P.
  Proof.
    intros Hx. destruct (double_rep x Hx) as [A1 A2]. split; [auto|]. apply as_Z_mod; [auto|].
    destruct (into_ok x Hx) as (_ & _ & [i Hi]).
    destruct (mod_divide (2 * val x)) as [k Hk]. rewrite <- A2 in Hk. exists (2 * i + k). lia.
  Qed.
  Lemma sub_ok x y : element p x -> element p y -> element p (sub p x y) /\ as_Z (sub p x y) = (as_Z x - as_Z y) mod P.
  Proof.
    intros Hx Hy. destruct (sub_rep x y Hx Hy) as [A1 A2]. split; [auto|]. apply as_Z_mod; [auto|].
    destruct (into_ok x Hx) as (_ & _ & [i Hi]). destruct (into_ok y Hy) as (_ & _ & [j Hj]).
    destruct (mod_divide (val x - val y)) as [k Hk]. rewrite <- A2 in Hk. exists (i - j + k). lia.
  Qed.
  Lemma neg_ok x : element p x -> element p (neg p x) /\ as_Z (neg p x) = (- as_Z x) mod P.
  Proof.
    intros Hx. destruct (neg_rep x Hx) as [A1 A2]. split; [auto|]. apply as_Z_mod; [auto|].
    destruct (into_ok x Hx) as (_ & _ & [i Hi]).
    destruct (mod_divide (- val x)) as [k Hk]. rewrite <- A2 in Hk. exists (k - i). lia.
  Qed.
  Lemma mul_ok x y : element p x -> element p y -> element p (mul p x y) /\ as_Z (mul p x y) = (as_Z x * as_Z y) mod P.
  Proof.
    intros Hx Hy. pose proof (elt_bound _ Hx) as [Hx1 Bx]. pose proof (elt_bound _ Hy) as [Hy1 By]. pose proof P_lt.
    destruct (mul_rep x y) as [M1 [k M2]]; auto; [nia|]. split; [auto|]. apply as_Z_mod; [auto|].
    destruct (into_ok x Hx) as (_ & _ & [i Hi]). destruct (into_ok y Hy) as (_ & _ & [j Hj]).
    apply cancel_Bn. exists (i * (as_Z y * Bn) + val x * j - k).
    replace ((as_Z x * as_Z y * Bn - val (mul p x y)) * Bn)
      with ((as_Z x * Bn) * (as_Z y * Bn) - val (mul p x y) * Bn) by ring.
    replace (val (mul p x y) * Bn) with (val x * val y + k * P) by lia.
    replace (as_Z x * Bn) with (val x + i * P) by lia. replace (val y) with (as_Z y * Bn - j * P) by lia. ring.
  Qed.
  Lemma one_ok : element p (fp_ONE p) /\ as_Z (fp_ONE p) = 1.
  Proof.
    destruct R_ok as [R1 R3]. split; [auto|]. apply into_unique; [auto|lia|].
    destruct (mod_divide Bn) as [k Hk]. unfold fp_ONE. exists k. lia.
  Qed.
  Lemma zero_ok : as_Z (fp_ZERO p) = 0.
  Proof. apply into_unique; [apply zero_elt|lia|]. exists 0. unfold fp_ZERO. rewrite val_ZERO. lia. Qed.
  Lemma is_zero_iff x : element p x -> is_zero p x = true <-> as_Z x = 0.
  Proof.
    intros Hx. rewrite is_zero_ok by apply Hx. rewrite Z.eqb_eq. split; intros E.
    - apply into_unique; [auto|lia|]. exists 0. lia.
    - rewrite (as_Z_inj x (fp_ZERO p)); auto using zero_elt; [apply val_ZERO|]. rewrite zero_ok. auto.
  Qed.

  (** ** Exponentiation *)
  Lemma pow_loop_ok x bits : element p x -> forall (res : option uint) e, 0 <= e ->
    match res with None => e = 0 | Some r => element p r /\ as_Z r = as_Z x ^ e mod P end ->
    match pow_loop p x bits res with
    | None => fold_left (fun e (b : bool) => 2 * e + Z.b2z b) bits e = 0
    | Some r => element p r /\ as_Z r = as_Z x ^ fold_left (fun e (b : bool) => 2 * e + Z.b2z b) bits e mod P
    end.
  Proof.
    intros Hx. destruct (into_ok x Hx) as (_ & Bx & _).
    induction bits as [|b bits IH]; intros res e He Hr; cbn [pow_loop fold_left]; [exact Hr|].
    apply IH; [destruct b; cbn [Z.b2z]; lia|]. cbv zeta.
    set (sq := match res with Some r => Some (square p r) | None => None end).
    assert (Hs : match sq with
                 | None => 2 * e = 0 | Some r => element p r /\ as_Z r = as_Z x ^ (2 * e) mod P end).
    { unfold sq. destruct res as [r|]; [|lia]. destruct Hr as [Hr1 Hr2]. destruct (mul_ok r r Hr1 Hr1) as [M1 M2].
      split; [exact M1|]. unfold square. rewrite M2, Hr2, <- Z.mul_mod by lia.
      replace (2 * e) with (e + e) by lia. rewrite Z.pow_add_r by lia. auto. }
    clearbody sq. destruct sq as [r|].
    - destruct Hs as [H1 H2]. destruct b; cbn [Z.b2z]; cbv iota beta.
      + destruct (mul_ok r x H1 Hx) as [M1 M2]. split; [exact M1|]. rewrite M2, H2, Z.mul_mod_idemp_l by lia.
        rewrite Z.pow_add_r, Z.pow_1_r by lia. auto.
      + rewrite Z.add_0_r. auto.
    - destruct b; cbn [Z.b2z].
      + rewrite Hs. cbn [Z.add]. rewrite Z.pow_1_r, Z.mod_small by auto. auto.
      + lia.
  Qed.
  Lemma pow_ok x bits : element p x -> element p (pow p x bits) /\ as_Z (pow p x bits) = as_Z x ^ bits_value bits mod P.
  Proof.
    intros Hx. unfold pow, bits_value. pose proof (pow_loop_ok x bits Hx None 0 ltac:(lia) eq_refl) as H.
    destruct (pow_loop p x bits None) as [r|]; [exact H|]. destruct one_ok as [O1 O2]. split; [exact O1|].
    rewrite O2, H, Z.pow_0_r, Z.mod_small by lia. auto.
  Qed.

  Lemma products_ok a b : Forall (element p) a -> Forall (element p) b -> forall sum, element p sum ->
    element p (products_loop p a b sum) /\
    as_Z (products_loop p a b sum) = (as_Z sum + dot (map as_Z a) (map as_Z b)) mod P.
  Proof.
    intros Ha. revert b. induction Ha as [|x a Hx Ha IH]; intros b Hb sum Hs; cbn [products_loop map dot].
    - split; [auto|]. destruct (into_ok sum Hs) as (_ & B1 & _). rewrite Z.add_0_r, Z.mod_small; auto.
    - destruct Hb as [|y b Hy Hb]; cbn [products_loop map dot].
      + split; [auto|]. destruct (into_ok sum Hs) as (_ & B1 & _). rewrite Z.add_0_r, Z.mod_small; auto.
      + destruct (mul_ok x y Hx Hy) as [M1 M2]. destruct (add_ok sum _ Hs M1) as [A1 A2].
        destruct (IH b Hb _ A1) as [I1 I2]. split; [auto|]. rewrite I2, A2, M2.
        rewrite Z.add_mod_idemp_r, Z.add_mod_idemp_l by lia. f_equal. ring.
  Qed.

  (** ** Inversion *)
  Lemma halve_ok b : element p b -> element p (halve p b) /\ (P | 2 * val (halve p b) - val b).
  Proof.
    intros Hb. apply elt_bound in Hb as [Hb Bb]. unfold halve. rewrite ct_is_even_ok. pose proof P_lt. pose proof n_pos.
    destruct (Z.even (val b)) eqn:Ev.
    - destruct (div2_ok n b Hb) as [D1 D2]. apply Z.even_spec in Ev as [h Eh].
      assert (Eq : val (div2 b) = h) by (rewrite D2, Eh, Z.mul_comm, Z.div_mul; lia).
      split; [split; [auto|lia]|]. exists 0. lia.
    - destruct (add_assign_ok n b p false Hb Hp) as [A1 A2]. unfold checked_add_assign. cbn [Z.b2z] in A2.
      destruct (add_assign_loop b p false) as [s c]. cbn [fst snd] in *.
      destruct (div2_ok n s A1) as [D1 D2].
      assert (Hs : exists h, val b + P = 2 * h).
      { apply Z.even_spec. rewrite Z.even_add, Ev, <- Z.negb_odd, Hodd. reflexivity. }
      destruct Hs as [h Eh]. pose proof Bn_half as Hh. set (H2 := 2 ^ 63 * Bp (n - 1)) in *.
      assert (Esd : val (div2 s) = h - H2 * Z.b2z c).
      { rewrite D2. replace (val s) with ((h - H2 * Z.b2z c) * 2) by lia. apply Z.div_mul. lia. }
      destruct (negb (HAS_MODULUS_SPARE_BIT p) && c) eqn:Ec.
      + apply andb_prop in Ec as [_ ->]. cbn [Z.b2z] in Esd. unfold N.
        pose proof (limbs_len _ _ D1) as Ld. pose proof (limbs_nth _ _ (n - 1) D1) as Hx.
        set (x := nth (n - 1) (div2 s) 0) in *.
        assert (Hlt : x < 2 ^ 63).
        { pose proof (nth_val_le n (div2 s) (n - 1) D1). fold x in H1. pose proof (Bp_pos (n - 1)).
          assert (val (div2 s) < H2) by lia. unfold H2 in *. nia. }
        assert (L : Z.lor x (2 ^ 63) = x + 2 ^ 63).
        { rewrite Z.lor_comm. replace (2 ^ 63) with (2 ^ 63 * 1) at 1 by lia. rewrite lor_disjoint by lia. lia. }
        rewrite L.
        assert (limb (x + 2 ^ 63)) by (change B with (2 ^ 63 + 2 ^ 63); lia).
        assert (Ev2 : val (upd (div2 s) (n - 1) (x + 2 ^ 63)) = h).
        { rewrite upd_val by lia. fold x. rewrite Esd. unfold H2. ring. }
        split; [split; [apply upd_limbs; auto|lia]|]. rewrite Ev2. exists 1. lia.
      + assert (Hc : c = false).
        { destruct c; [|auto]. rewrite andb_true_r in Ec. apply negb_false_iff in Ec.
          pose proof (spare_ok Ec). pose proof (val_bound _ _ A1). cbn [Z.b2z] in A2. lia. }
        rewrite Hc in Esd. cbn [Z.b2z] in Esd.
        split; [split; [auto|lia]|]. exists 1. lia.
  Qed.
  (** [x] times [a] is [u] times [k] *)
  Definition rel (a k u x : Z) := (P | x * a - u * k).
  Lemma even_loop_ok a k fuel : forall u b, limbs n u -> 0 < val u < 2 ^ Z.of_nat fuel -> element p b -> rel a k (val u) (val b) ->
    exists u' b', even_loop p fuel u b = Some (u', b') /\ limbs n u' /\ element p b' /\ rel a k (val u') (val b') /\
      Z.odd (val u') = true /\ exists j, 0 <= j /\ val u = val u' * 2 ^ j.
  Proof.
    induction fuel as [|fuel IH]; intros u b Hu Hb Heb Hr.
    - cbn [even_loop]. rewrite ct_is_even_ok. change (2 ^ Z.of_nat 0) with 1 in Hb. lia.
    - cbn [even_loop]. rewrite ct_is_even_ok. destruct (Z.even (val u)) eqn:Ev.
      + apply Z.even_spec in Ev as [h Eh]. destruct (div2_ok n u Hu) as [D1 D2].
        assert (Ed : val (div2 u) = h) by (rewrite D2, Eh, Z.mul_comm, Z.div_mul; lia).
        destruct (halve_ok b Heb) as [H1 [q Hq]].
        rewrite Nat2Z.inj_succ, Z.pow_succ_r in Hb by lia.
        destruct (IH (div2 u) (halve p b)) as (u' & b' & E1 & E2 & E3 & E4 & E5 & j & E6 & E7); auto.
        * rewrite Ed. lia.
        * apply cancel_2. destruct Hr as [t Ht]. exists (t + q * a). rewrite Ed. rewrite Eh in Ht.
          replace (2 * (val (halve p b) * a - h * k)) with ((2 * val (halve p b)) * a - 2 * h * k) by ring.
          replace (2 * val (halve p b)) with (val b + q * P) by lia. lia.
        * exists u', b'. do 5 (split; [auto|]). exists (j + 1). split; [lia|]. rewrite Z.pow_add_r by lia.
          rewrite Eh, <- Ed, E7. ring.
      + exists u, b. split; [auto|]. split; [auto|]. split; [auto|]. split; [auto|]. split.
        * rewrite <- Z.negb_even, Ev. auto.
        * exists 0. lia.
  Qed.
  Lemma sub_limbs_ok x y : limbs n x -> limbs n y -> val y <= val x ->
    limbs n (fst (checked_sub_assign x y)) /\ val (fst (checked_sub_assign x y)) = val x - val y.
  Proof.
    intros Hx Hy Hle. destruct (sub_assign_ok n x y false Hx Hy) as [S1 S2]. unfold checked_sub_assign.
    split; [auto|]. cbn [Z.b2z] in S2. pose proof (val_bound _ _ S1). pose proof (val_bound _ _ Hx). pose proof (val_bound _ _ Hy).
    destruct (snd (sub_assign_loop x y false)); cbn [Z.b2z] in S2; lia.
  Qed.
  Lemma rel_sub a k u v x y z : rel a k u x -> rel a k v y -> z = (x - y) mod P -> rel a k (u - v) z.
  Proof.
    intros [s Hs] [t Ht] ->. destruct (mod_divide (x - y)) as [q Hq]. exists (s - t - q * a).
    replace ((x - y) mod P) with (x - y - q * P) by lia. lia.
  Qed.
  Lemma ONE_eq x : limbs n x -> ct_eq x (ONE n) = (val x =? 1).
  Proof. intros. rewrite (ct_eq_ok n) by (auto using limbs_ONE). rewrite val_ONE by apply n_pos. auto. Qed.
  Definition good a k fuel u v b c :=
    exists r, inverse_loop p fuel u v b c = Some r /\ element p r /\ rel a k 1 (val r).
  Definition state a k u v b c :=
    limbs n u /\ limbs n v /\ element p b /\ element p c /\ 0 < val u /\ 0 < val v /\
    rel_prime (val u) (val v) /\ rel a k (val u) (val b) /\ rel a k (val v) (val c).
  Lemma rel_prime_div x y x' y' : rel_prime x y -> (x' | x) -> (y' | y) -> rel_prime x' y'.
  Proof.
    intros H Hx Hy. apply (rel_prime_div x'); [|exists 1; lia]. apply rel_prime_sym, (rel_prime_div y); auto.
    apply rel_prime_sym, (rel_prime_div x); auto.
  Qed.
  Lemma rel_prime_minus x y : rel_prime x y -> rel_prime (x - y) y.
  Proof.
    intros [_ _ H]. constructor; [exists (x - y); lia|exists y; lia|]. intros d [i Hi] [j Hj]. apply H; [exists (i + j)|exists j]; lia.
  Qed.
  Lemma odd_pos_pow u u' j : 0 < u -> 0 <= j -> u = u' * 2 ^ j -> 0 < u' /\ u' <= u.
  Proof. intros Hu Hj E. assert (0 < 2 ^ j) by (apply Z.pow_pos_nonneg; lia). nia. Qed.
  Lemma inverse_step a k fuel m u v b c : state a k u v b c ->
    val u < 2 ^ Z.of_nat (S fuel) -> val v < 2 ^ Z.of_nat (S fuel) ->
    (forall u' v' i j, 0 <= i -> 0 <= j -> val u = u' * 2 ^ i -> val v = v' * 2 ^ j -> 
       Z.odd u' = true -> Z.odd v' = true -> u' * v' < 2 ^ Z.of_nat m) ->
    (forall u v b c, state a k u v b c -> (Z.even (val u) = true \/ Z.even (val v) = true) ->
       val u * val v < 2 ^ Z.of_nat m -> good a k fuel u v b c) ->
    good a k (S fuel) u v b c.
  Proof.
    intros (Hu & Hv & Hb & Hc & Pu & Pv & Hg & Rb & Rc) Fu Fv Hprod IH. unfold good. cbn [inverse_loop]. unfold N.
    rewrite !ONE_eq by auto.
    destruct (Z.eqb_spec (val u) 1) as [E|Nu]; [exists b; rewrite E in Rb; auto|].
    destruct (Z.eqb_spec (val v) 1) as [E|Nv]; [exists c; rewrite E in Rc; auto|].
    destruct (even_loop_ok a k (S fuel) u b) as (u' & b' & E1 & U1 & U2 & U3 & U4 & i & U5 & U6); auto.
    destruct (even_loop_ok a k (S fuel) v c) as (v' & c' & E2 & V1 & V2 & V3 & V4 & j & V5 & V6); auto.
    rewrite E1, E2. rewrite (ct_gt_ok n) by auto.
    destruct (odd_pos_pow _ _ _ Pu U5 U6) as [Pu' _]. destruct (odd_pos_pow _ _ _ Pv V5 V6) as [Pv' _].
    specialize (Hprod _ _ i j U5 V5 U6 V6 U4 V4).
    assert (Hg' : rel_prime (val u') (val v')).
    { apply (rel_prime_div _ _ _ _ Hg); [exists (2 ^ i)|exists (2 ^ j)]; lia. }
    destruct (Z.ltb_spec (val v') (val u')) as [Hlt|Hle].
    - destruct (sub_limbs_ok u' v' U1 V1) as [S1 S2]; [lia|]. destruct (sub_rep b' c' U2 V2) as [S3 S4].
      apply IH; [|left|]; rewrite ?S2.
      + unfold state. rewrite S2. split; [auto|]. split; [auto|]. split; [auto|]. split; [auto|]. split; [lia|]. split; [lia|].
        split; [apply rel_prime_minus; auto|]. split; [eapply rel_sub; eauto|auto].
      + rewrite Z.even_sub, <- !Z.negb_odd, U4, V4. auto.
      + nia.
    - destruct (Z.eq_dec (val u') (val v')) as [Heq|Hne].
      + assert (val u' = 1).
        { destruct Hg' as [_ _ G]. rewrite Heq in G. specialize (G (val v') (Z.divide_refl _) (Z.divide_refl _)).
          apply Z.divide_1_r_nonneg in G; lia. }
        exists b'. split; [|rewrite H in U3; auto].
        destruct fuel; cbn [inverse_loop]; unfold N; rewrite ONE_eq, H by auto; auto.
      + destruct (sub_limbs_ok v' u' V1 U1) as [S1 S2]; [lia|]. destruct (sub_rep c' b' V2 U2) as [S3 S4].
        apply IH; [|right|]; rewrite ?S2.
        * assert (rel_prime (val u') (val v' - val u')) by (apply rel_prime_sym, rel_prime_minus, rel_prime_sym; auto).
          unfold state. rewrite S2. split; [auto|]. split; [auto|]. split; [auto|]. split; [auto|]. split; [lia|]. split; [lia|].
          split; [auto|]. split; [auto|]. eapply rel_sub; eauto.
        * rewrite Z.even_sub, <- !Z.negb_odd, U4, V4. auto.
        * nia.
  Qed.
  Lemma lt_pow_le x a b : (a <= b)%nat -> x < 2 ^ Z.of_nat a -> x < 2 ^ Z.of_nat b.
  Proof. intros H Hx. pose proof (Z.pow_le_mono_r 2 (Z.of_nat a) (Z.of_nat b)). lia. Qed.
  Lemma inverse_loop_even a k fuel : forall m u v b c, state a k u v b c ->
    (Z.even (val u) = true \/ Z.even (val v) = true) -> val u * val v < 2 ^ Z.of_nat m -> (m <= fuel)%nat ->
    good a k fuel u v b c.
  Proof.
    induction fuel as [|fuel IH]; intros m u v b c Hs He Hm Hf; pose proof Hs as (_ & _ & _ & _ & Pu & Pv & _).
    - replace m with 0%nat in Hm by lia. change (2 ^ Z.of_nat 0) with 1 in Hm. nia.
    - destruct m as [|m]; [change (2 ^ Z.of_nat 0) with 1 in Hm; nia|].
      apply (inverse_step a k fuel m); auto.
      + apply (lt_pow_le _ (S m)); [lia|]. nia.
      + apply (lt_pow_le _ (S m)); [lia|]. nia.
      + intros u' v' i j Hi Hj Eu Ev Ou Ov. rewrite Nat2Z.inj_succ, Z.pow_succ_r in Hm by lia.
        destruct (odd_pos_pow _ _ _ Pu Hi Eu) as [Pu' Lu]. destruct (odd_pos_pow _ _ _ Pv Hj Ev) as [Pv' Lv].
        assert (Hpos : forall w w' j, 0 <= j -> w = w' * 2 ^ j -> 0 < w' -> Z.odd w' = true -> Z.even w = true -> 2 * w' <= w).
        { intros w w' e H0 Ew Hw Ow Evw. assert (e <> 0) by (intros ->; rewrite Z.pow_0_r, Z.mul_1_r in Ew; subst w;
            rewrite <- Z.negb_odd, Ow in Evw; discriminate).
          pose proof (Z.pow_le_mono_r 2 1 e ltac:(lia) ltac:(lia)). nia. }
        destruct He as [He|He].
        * specialize (Hpos _ _ _ Hi Eu Pu' Ou He). nia.
        * specialize (Hpos _ _ _ Hj Ev Pv' Ov He). nia.
      + intros. apply (IH m); auto. lia.
  Qed.
  Definition inverse_fuel : nat := S (128 * n).
  Lemma inverse_ok fuel a : (inverse_fuel <= fuel)%nat -> element p a -> as_Z a <> 0 -> rel_prime (as_Z a) P ->
    exists r, inverse p fuel a = Some (Some r) /\ element p r /\ (as_Z a * as_Z r) mod P = 1.
  Proof.
    intros Hf Ha Hz Hg. unfold inverse. pose proof (is_zero_iff a Ha) as Hiz.
    destruct (is_zero p a); [tauto|]. pose proof (elt_bound _ Ha) as [Ha1 Ba]. destruct R2_ok as [R1 R3].
    destruct (into_ok a Ha) as (_ & Ia & [q Hq]). pose proof P_lt.
    assert (Hva : val a <> 0).
    { intros E. apply Hz. apply into_unique; [auto|lia|]. exists 0. lia. }
    assert (G : good (val a) (val (R2 p)) fuel a p (R2 p) (fp_ZERO p)).
    { unfold inverse_fuel in Hf. destruct fuel as [|fuel]; [lia|].
      assert (E2 : 2 ^ Z.of_nat (128 * n) = Bn * Bn).
      { rewrite !Bp_pow2, <- Z.pow_add_r by lia. f_equal. lia. }
      pose proof (Bp_pos n).
      apply (inverse_step _ _ fuel (128 * n)).
      - unfold state. split; [auto|]. split; [auto|]. split; [auto|]. split; [apply zero_elt|]. split; [lia|]. split; [lia|].
        split; [|split].
        + assert (rel_prime P (as_Z a * Bn)) as G2 by (apply rel_prime_mult; [apply rel_prime_sym; auto|apply coprime_Bn]).
          apply rel_prime_sym. replace (val a) with (as_Z a * Bn + (- q) * P) by lia.
          destruct G2 as [_ _ G2]. constructor; [exists P; lia|exists (as_Z a * Bn + - q * P); lia|].
          intros d D1 D2. apply G2; auto. destruct D1 as [s Hs], D2 as [t Ht]. exists (t + q * s). rewrite Hs in Ht at 1. lia.
        + exists 0. ring.
        + exists (- val (R2 p)). unfold fp_ZERO. rewrite val_ZERO. ring.
      - apply (lt_pow_le _ (128 * n)); [lia|]. rewrite E2. nia.
      - apply (lt_pow_le _ (128 * n)); [lia|]. rewrite E2. nia.
      - intros u' v' i j Hi Hj Eu Ev _ _. rewrite E2.
        destruct (odd_pos_pow (val a) u' i ltac:(lia) Hi Eu) as [Pu' Lu].
        destruct (odd_pos_pow P v' j ltac:(lia) Hj Ev) as [Pv' Lv]. clear - Pu' Lu Pv' Lv Ba H. nia.
      - intros. apply (inverse_loop_even _ _ fuel (128 * n)); auto. lia. }
    destruct G as (r & E & Hr & [t Ht]). rewrite E. exists r. split; [auto|]. split; [auto|].
    destruct (into_ok r Hr) as (_ & Ir & [s Hs]). destruct (mod_divide (Bn * Bn)) as [w Hw]. rewrite <- R3 in Hw.
    assert (D : (P | as_Z a * as_Z r - 1)).
    { apply cancel_Bn, cancel_Bn. exists (q * (as_Z r * Bn) + val a * s + t - w).
      replace ((as_Z a * as_Z r - 1) * Bn * Bn) with ((as_Z a * Bn) * (as_Z r * Bn) - Bn * Bn) by ring.
      replace (Bn * Bn) with (val (R2 p) + w * P) by lia.
      replace (as_Z a * Bn) with (val a + q * P) by lia.
      replace (val (R2 p)) with (val r * val a - t * P) by lia. 
      replace (val r) with (as_Z r * Bn - s * P) by lia. ring. }
    destruct D as [d Hd]. symmetry. apply (Z.mod_unique_pos _ _ d); lia.
  Qed.
  (** With a common divisor of the element and the modulus the loop never ends. *)
  Lemma even_loop_div g fuel : Z.odd g = true -> forall u b u' b', limbs n u -> (g | val u) -> element p b ->
    even_loop p fuel u b = Some (u', b') -> limbs n u' /\ (g | val u') /\ element p b'.
  Proof.
    intros Hg. induction fuel as [|fuel IH]; intros u b u' b' Hu Hd Hb; cbn [even_loop]; rewrite ct_is_even_ok.
    - destruct (Z.even (val u)); [discriminate|]. intros [= <- <-]. auto.
    - destruct (Z.even (val u)) eqn:Ev; [|intros [= <- <-]; auto].
      destruct (div2_ok n u Hu) as [D1 D2]. destruct (halve_ok b Hb) as [H1 _]. apply IH; auto.
      apply Z.even_spec in Ev as [h Eh]. rewrite D2, Eh, Z.mul_comm, Z.div_mul by lia. rewrite Eh in Hd.
      apply (Gauss _ _ _ Hd). apply rel_prime_sym, prime_rel_prime; [apply prime_2|].
      intros [z Hz]. rewrite Hz, Z.mul_comm, Z.odd_mul in Hg. discriminate.
  Qed.
  Lemma inverse_loop_div g fuel : Z.odd g = true -> 1 < g -> forall u v b c, limbs n u -> limbs n v -> element p b -> element p c ->
    (g | val u) -> (g | val v) -> inverse_loop p fuel u v b c = None.
  Proof.
    intros Hg Hg1. induction fuel as [|fuel IH]; intros u v b c Hu Hv Hb Hc Du Dv; cbn [inverse_loop]; unfold N;
      rewrite !ONE_eq by auto.
    - destruct (Z.eqb_spec (val u) 1) as [E|_]; [rewrite E in Du; apply Z.divide_1_r_nonneg in Du; lia|].
      destruct (Z.eqb_spec (val v) 1) as [E|_]; [rewrite E in Dv; apply Z.divide_1_r_nonneg in Dv; lia|]. auto.
    - destruct (Z.eqb_spec (val u) 1) as [E|_]; [rewrite E in Du; apply Z.divide_1_r_nonneg in Du; lia|].
      destruct (Z.eqb_spec (val v) 1) as [E|_]; [rewrite E in Dv; apply Z.divide_1_r_nonneg in Dv; lia|].
      destruct (even_loop p (S fuel) u b) as [[u' b']|] eqn:E1; [|auto].
      destruct (even_loop p (S fuel) v c) as [[v' c']|] eqn:E2; [|auto].
      apply (even_loop_div g) in E1 as (U1 & U2 & U3); auto. apply (even_loop_div g) in E2 as (V1 & V2 & V3); auto.
      rewrite (ct_gt_ok n) by auto. destruct (Z.ltb_spec (val v') (val u')).
      + destruct (sub_limbs_ok u' v' U1 V1) as [S1 S2]; [lia|]. destruct (sub_rep b' c' U3 V3) as [S3 _].
        apply IH; auto. rewrite S2. apply Z.divide_sub_r; auto.
      + destruct (sub_limbs_ok v' u' V1 U1) as [S1 S2]; [lia|]. destruct (sub_rep c' b' V3 U3) as [S3 _].
        apply IH; auto. rewrite S2. apply Z.divide_sub_r; auto.
  Qed.
  Lemma inverse_div g fuel a : 1 < g -> (g | as_Z a) -> (g | P) -> element p a -> as_Z a <> 0 -> inverse p fuel a = None.
  Proof.
    intros Hg Da Dp Ha Hz. unfold inverse. pose proof (is_zero_iff a Ha) as Hiz.
    destruct (is_zero p a); [tauto|]. destruct R2_ok as [R1 _]. destruct (into_ok a Ha) as (_ & _ & [q Hq]).
    rewrite (inverse_loop_div g); auto using zero_elt; [|apply Ha|].
    - destruct Dp as [z Hz']. rewrite Hz', Z.odd_mul in Hodd. apply andb_prop in Hodd. tauto.
    - replace (val a) with (as_Z a * Bn - q * P) by lia. apply Z.divide_sub_r; [apply Z.divide_mul_l|apply Z.divide_mul_r]; auto.
  Qed.
End Field.
