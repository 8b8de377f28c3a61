(** Correctness of sqrt, average, mul_div. *)
From Verif.Base Require Import Prelude.
From Verif.Model Require Import Math.
From Verif.Spec Require Import Structs_spec.
#[global] Open Scope Z_scope.

(** *** Estimation phase *)
Definition est (a aa xn : Z) : Prop :=
  1 <= aa /\ 1 <= xn /\ xn * xn * aa <= a /\ a < xn * xn * (aa + 1).

Lemma shift_est a n t aa xn :
  0 < t -> n = 2 * t -> n < 256 -> a < two256 -> est a aa xn -> xn < 2 ^ (128 - t) ->
  aa < 2 ^ n * 2 ^ n ->
  let '(aa', xn') := sqrt_shift n (aa, xn) in
  est a aa' xn' /\ aa' < 2 ^ n /\ xn' < 2 ^ 128 /\ (xn' = xn \/ xn' = xn * 2 ^ t).
Proof.
  intros Ht -> Hn Ha (H1 & H2 & H3 & H4) Hx Haa. unfold sqrt_shift.
  assert (Et : 2 ^ (2 * t) = 2 ^ t * 2 ^ t) by (rewrite <- Z.pow_add_r by lia; f_equal; lia).
  assert (Hp : 0 < 2 ^ t) by (apply Z.pow_pos_nonneg; lia).
  assert (E128 : 2 ^ 128 = 2 ^ (128 - t) * 2 ^ t) by (rewrite <- Z.pow_add_r by lia; f_equal; lia).
  rewrite wshl_small.
  2: { split; [nia|]. unfold two256. rewrite Z.mul_1_l. apply Z.pow_lt_mono_r; lia. }
  rewrite Z.mul_1_l. replace (2 * t / 2) with t by (rewrite Z.mul_comm, Z.div_mul; lia).
  destruct (Z.leb_spec (2 ^ (2 * t)) aa) as [Hle|Hlt].
  - assert (Hxn : xn * 2 ^ t < 2 ^ 128) by nia.
    rewrite wshl_small; [|split; [nia|]; eapply Z.lt_trans; [exact Hxn|reflexivity]].
    set (P := 2 ^ t) in *. rewrite Et in *.
    pose proof (Z.div_mod aa (P * P) ltac:(nia)) as Hd. pose proof (Z.mod_pos_bound aa (P * P) ltac:(nia)) as Hm.
    set (q := aa / (P * P)) in *. set (m := aa mod (P * P)) in *.
    assert (1 <= q) by nia.
    split; [|split; [|split; [exact Hxn|right; reflexivity]]].
    + unfold est. split; [assumption|]. split; [nia|]. 
      assert (E1 : xn * P * (xn * P) * q = xn * xn * (P * P * q)) by ring.
      assert (E2 : xn * P * (xn * P) * (q + 1) = xn * xn * (P * P * q + P * P)) by ring.
      assert (0 <= xn * xn) by nia.
      rewrite E1, E2. split.
      * eapply Z.le_trans; [|exact H3]. apply Z.mul_le_mono_nonneg_l; lia.
      * eapply Z.lt_le_trans; [exact H4|]. apply Z.mul_le_mono_nonneg_l; lia.
    + apply Z.div_lt_upper_bound; nia.
  - split; [unfold est; auto|]. split; [exact Hlt|]. split; [|left; reflexivity]. nia.
Qed.

Lemma in256_ok v : 0 <= v < two256 -> in256 v = Some v.
Proof. intros H. unfold in256, sguard. replace ((0 <=? v) && (v <? two256)) with true by lia. reflexivity. Qed.
Lemma shift_strict_ok a n t aa xn :
  0 < t -> n = 2 * t -> n < 256 -> est a aa xn -> xn < 2 ^ (128 - t) ->
  shift_strict n (aa, xn) = Some (sqrt_shift n (aa, xn)).
Proof.
  intros Ht -> Hn (H1 & H2 & H3 & H4) Hx. unfold shift_strict, sqrt_shift.
  assert (Et : 2 ^ (2 * t) = 2 ^ t * 2 ^ t) by (rewrite <- Z.pow_add_r by lia; f_equal; lia).
  assert (Hp : 0 < 2 ^ t) by (apply Z.pow_pos_nonneg; lia).
  assert (H2t : 0 <= 2 ^ (2 * t) < two256).
  { split; [nia|]. unfold two256. apply Z.pow_lt_mono_r; lia. }
  rewrite in256_ok by exact H2t. cbn [ob]. rewrite wshl_small by (rewrite Z.mul_1_l; exact H2t).
  rewrite Z.mul_1_l. replace (2 * t / 2) with t by (rewrite Z.mul_comm, Z.div_mul; lia).
  assert (E128 : 2 ^ 128 = 2 ^ (128 - t) * 2 ^ t) by (rewrite <- Z.pow_add_r by lia; f_equal; lia).
  assert (Hxn : 0 <= xn * 2 ^ t < two256).
  { split; [nia|]. eapply Z.lt_trans with (2 ^ 128); [nia|reflexivity]. }
  destruct (2 ^ (2 * t) <=? aa); [|reflexivity]. rewrite in256_ok, wshl_small by exact Hxn. reflexivity.
Qed.
Lemma newton_strict_ok a xn : 0 <= a -> 0 < xn -> xn + a / xn < two256 -> newton_strict a xn = Some (newton a xn).
Proof.
  intros Ha H1 H2. unfold newton_strict, sdiv, sguard, newton. replace (xn =? 0) with false by lia. cbn [negb ob].
  assert (0 <= a / xn) by (apply Z.div_pos; lia).
  rewrite in256_ok, wadd_small by lia. reflexivity.
Qed.

(** *** Newton iteration *)
Lemma newton_step a r d x :
  1 <= x -> x <= r -> r * r <= a -> a <= r * r + 2 * r -> 0 <= d -> r + d + a / (r + d) < two256 ->
  exists d', newton a (r + d) = r + d' /\ 0 <= d' /\ (d' <= 1 \/ 2 * x * (d' - 1) <= d * d).
Proof.
  intros Hx Hr Ha1 Ha2 Hd Hov. unfold newton.
  assert (Hy : 0 < r + d) by lia.
  pose proof (Z.div_mod a (r + d) ltac:(lia)) as Hdm. pose proof (Z.mod_pos_bound a (r + d) Hy) as Hm.
  set (q := a / (r + d)) in *. set (m := a mod (r + d)) in *.
  assert (Hq : 0 <= q) by nia.
  rewrite wadd_small by lia.
  pose proof (Z.div_mod (r + d + q) 2 ltac:(lia)) as Hdm2. pose proof (Z.mod_pos_bound (r + d + q) 2 ltac:(lia)) as Hm2.
  set (y := (r + d + q) / 2) in *. set (m2 := (r + d + q) mod 2) in *.
  (* q >= r - d, since (r+d)(r-d) <= r^2 <= a *)
  assert (Hq2 : r - d <= q) by nia.
  exists (y - r). split; [lia|]. split; [lia|].
  destruct (Z.le_gt_cases (y - r) 1); [left; lia|right].
  (* 2 (r+d) (y - r) <= d^2 + 2r *)
  assert (Hk : 2 * (r + d) * (y - r) <= d * d + 2 * r) by nia.
  assert (2 * (r + d) * (y - r - 1) <= d * d) by nia.
  nia.
Qed.

(** quadratic convergence, in the form d <= x/C + 2 *)
Lemma converge x C d d' :
  4 <= x -> 4 <= C -> 0 <= d -> C * d <= x + 2 * C -> (d' <= 1 \/ 2 * x * (d' - 1) <= d * d) ->
  2 * C * C * d' <= x + 4 * C * C.
Proof.
  intros Hx HC Hd H [H'|H']; [nia|].
  assert (H1 : (C * d) * (C * d) <= (x + 2 * C) * (x + 2 * C)) by nia.
  assert (H2 : C * C * (2 * x * (d' - 1)) <= C * C * (d * d)) by nia.
  assert (H3 : x * (2 * C * C * (d' - 1)) <= x * x + 4 * C * x + 4 * C * C) by nia.
  assert (H4 : 4 * C * x + 4 * C * C <= 2 * C * C * x) by nia.
  assert (H5 : x * (2 * C * C * (d' - 1)) <= x * (x + 2 * C * C)) by nia.
  apply Z.mul_le_mono_pos_l in H5; [|lia]. nia.
Qed.

Lemma newton_first a r x :
  2 <= x -> x <= r -> r < 2 * x -> r * r <= a -> a <= r * r + 2 * r -> x < 2 ^ 128 -> (x mod 2 = 0) ->
  exists d, newton a (3 * x / 2) = r + d /\ 0 <= d /\ 12 * d <= x + 24 /\ 0 < 3 * x / 2 /\ 3 * x / 2 + a / (3 * x / 2) < two256.
Proof.
  intros Hx Hr1 Hr2 Ha1 Ha2 Hxm Hev. unfold newton.
  assert (Ex : x = 2 * (x / 2)) by (pose proof (Z.div_mod x 2 ltac:(lia)); lia).
  set (h := x / 2) in *. clearbody h. subst x. clear Hev.
  replace (3 * (2 * h) / 2) with (3 * h) by (replace (3 * (2 * h)) with (3 * h * 2) by ring; rewrite Z.div_mul; lia).
  pose proof (Z.div_mod a (3 * h) ltac:(lia)) as Hdm. pose proof (Z.mod_pos_bound a (3 * h) ltac:(lia)) as Hm.
  set (q := a / (3 * h)) in *. set (m := a mod (3 * h)) in *.
  assert (Hq : 0 <= q) by nia.
  assert (Ha3 : a < 16 * (h * h)) by nia.
  assert (Hq' : q < 8 * h) by nia.
  assert (Hrg : 3 * h + q < two256). { change (2 ^ 128) with 340282366920938463463374607431768211456 in Hxm. unfold two256. change (2 ^ 256) with (340282366920938463463374607431768211456 * 340282366920938463463374607431768211456). lia. }
  rewrite wadd_small by lia.
  pose proof (Z.div_mod (3 * h + q) 2 ltac:(lia)) as Hdm2. pose proof (Z.mod_pos_bound (3 * h + q) 2 ltac:(lia)) as Hm2.
  set (y := (3 * h + q) / 2) in *. set (m2 := (3 * h + q) mod 2) in *.
  assert (Hq2 : 2 * r - 3 * h <= q).
  { (* (3h)(2r-3h) = r^2 - (r-3h)^2 <= a *)
    pose proof (Z.square_nonneg (r - 3 * h)) as Sq. apply Z.div_le_lower_bound; lia. }
  exists (y - r). split; [lia|]. split; [lia|].
  (* 2*3h*(y-r) <= (3h-r)^2 + 2r <= h^2 + 2r *)
  assert (Hy2 : 3 * h * (2 * y) <= 3 * h * (3 * h + q)) by (apply Z.mul_le_mono_nonneg_l; lia).
  assert (Hk : 6 * h * (y - r) <= (3 * h - r) * (3 * h - r) + 2 * r) by lia.
  assert (Hk2 : (3 * h - r) * (3 * h - r) <= h * h).
  { assert (0 <= (r - 2 * h) * (4 * h - r)) by (apply Z.mul_nonneg_nonneg; lia). lia. }
  assert (H6 : h * (6 * (y - r)) <= h * (h + 8)) by lia.
  apply Z.mul_le_mono_pos_l in H6; [|lia]. split; [lia|]. split; [lia|exact Hrg].
Qed.

Lemma two128_sq : 2 ^ 128 * 2 ^ 128 = two256.
Proof. reflexivity. Qed.

Lemma newton_in_range a r d x :
  1 <= x -> x <= r -> r < 2 * x -> x < 2 ^ 128 -> a <= r * r + 2 * r -> 0 <= d -> d <= x + 24 ->
  r + d + a / (r + d) < two256.
Proof.
  intros. assert (a / (r + d) <= r + 2).
  { apply Z.div_le_upper_bound; nia. }
  unfold two256. change (2 ^ 256) with (340282366920938463463374607431768211456 * 340282366920938463463374607431768211456).
  change (2 ^ 128) with 340282366920938463463374607431768211456 in *. lia.
Qed.

(** After the estimation, the six Newton steps reach r or r+1. *)
Definition refine (a x : Z) : Z :=
  let xn := wmul 3 x / 2 in
  let xn := newton a xn in let xn := newton a xn in let xn := newton a xn in
  let xn := newton a xn in let xn := newton a xn in let xn := newton a xn in
  wsub xn (if a / xn <? xn then 1 else 0).

Lemma final_step a r d :
  1 <= r -> r * r <= a -> a <= r * r + 2 * r -> 0 <= d <= 1 -> r + 1 < two256 ->
  wsub (r + d) (if a / (r + d) <? r + d then 1 else 0) = r.
Proof.
  intros Hr H1 H2 Hd Hm. assert (d = 0 \/ d = 1) as [-> | ->] by lia.
  - rewrite Z.add_0_r. assert (r <= a / r) by (apply Z.div_le_lower_bound; lia).
    replace (a / r <? r) with false by lia. rewrite wsub_small by lia. lia.
  - assert (a / (r + 1) < r + 1) by (apply Z.div_lt_upper_bound; nia).
    replace (a / (r + 1) <? r + 1) with true by lia. rewrite wsub_small by lia. lia.
Qed.

Lemma refine_large a r x :
  4 <= x -> x < 2 ^ 128 -> x mod 2 = 0 -> x <= r -> r < 2 * x -> r * r <= a -> a <= r * r + 2 * r ->
  refine a x = r /\ refine_strict a x = Some r.
Proof.
  intros Hx Hxm Hev Hr1 Hr2 Ha1 Ha2. unfold refine, refine_strict.
  assert (H3x : 0 <= 3 * x < two256).
  { unfold two256. change (2 ^ 256) with (340282366920938463463374607431768211456 * 340282366920938463463374607431768211456).
       change (2 ^ 128) with 340282366920938463463374607431768211456 in Hxm. lia. }
  rewrite wmul_small, in256_ok by exact H3x. cbn [ob].
  assert (Ha0 : 0 <= a) by nia.
  destruct (newton_first a r x ltac:(lia) Hr1 Hr2 Ha1 Ha2 Hxm Hev) as (d1 & N1 & P1 & B1 & Q1 & Q2).
  rewrite (newton_strict_ok _ _ Ha0 Q1 Q2), N1. cbn [ob].
  assert (S : forall C d, 4 <= C -> 0 <= d -> C * d <= x + 2 * C ->
     exists d', newton a (r + d) = r + d' /\ newton_strict a (r + d) = Some (r + d') /\ 0 <= d' /\ 2 * C * C * d' <= x + 2 * (2 * C * C) /\ (d' <= 1 \/ 2 * x * (d' - 1) <= d * d)).
  { intros C d HC Hd HB.
    assert (HR : r + d + a / (r + d) < two256) by (apply (newton_in_range a r d x); try lia; nia).
    destruct (newton_step a r d x) as (d' & E & P & B); try lia.
    - exists d'. split; [exact E|]. split; [rewrite <- E; apply newton_strict_ok; lia|]. split; [exact P|]. split; [|exact B].
      pose proof (converge x C d d' Hx HC Hd HB B). lia. }
  destruct (S 12 d1 ltac:(lia) P1 ltac:(lia)) as (d2 & -> & -> & P2 & B2 & _). cbn [ob]. change (2 * 12 * 12) with 288 in B2.
  destruct (S 288 d2 ltac:(lia) P2 B2) as (d3 & -> & -> & P3 & B3 & _). cbn [ob].
  change (2 * 288 * 288) with 165888 in B3.
  destruct (S 165888 d3 ltac:(lia) P3 B3) as (d4 & -> & -> & P4 & B4 & _). cbn [ob].
  change (2 * 165888 * 165888) with 55037657088 in B4.
  destruct (S 55037657088 d4 ltac:(lia) P4 B4) as (d5 & -> & -> & P5 & B5 & _). cbn [ob].
  change (2 * 55037657088 * 55037657088) with 6058287395472553279488 in B5.
  destruct (S 6058287395472553279488 d5 ltac:(lia) P5 B5) as (d6 & -> & -> & P6 & _ & B6). cbn [ob].
  assert (Hd6 : d6 <= 1).
  { destruct B6 as [B6|B6]; [exact B6|].
    assert (Hd5 : d5 <= x / 4 + 2 /\ d5 * d5 < 2 * x).
    { change (2 ^ 128) with 340282366920938463463374607431768211456 in Hxm.
      pose proof (Z.div_mod x 4 ltac:(lia)). pose proof (Z.mod_pos_bound x 4 ltac:(lia)).
      split; [lia|].
      (* d5 <= x/K + 2 with K^2 > x *)
      set (K := 6058287395472553279488) in *.
      assert (HK : K * d5 <= x + 2 * K) by lia.
      assert (K * K * (d5 * d5) <= (x + 2 * K) * (x + 2 * K)) by nia.
      assert ((x + 2 * K) * (x + 2 * K) < K * K * (2 * x)).
      { assert (x * x <= K * K * x - 36360000000000000000000000000000000000000 * x).
        { assert (x <= K * K - 36360000000000000000000000000000000000000).
          { unfold K. lia. } nia. }
        assert (4 * K * x <= 36360000000000000000000000000000000000000 * x) by (unfold K; nia).
        assert (4 * K * K <= K * K * x) by nia.
        assert (0 < x * 12126850418109786882046) by nia.
        assert (4 * K * x < 36360000000000000000000000000000000000000 * x) by (unfold K; nia).
        nia. }
      assert (0 < K * K) by (unfold K; lia). nia. }
    nia. }
  assert (Hfin : wsub (r + d6) (if a / (r + d6) <? r + d6 then 1 else 0) = r).
  { apply final_step; lia. }
  split; [exact Hfin|]. unfold sdiv, sguard. replace (r + d6 =? 0) with false by lia. cbn [negb ob].
  assert (Hb : 0 <= r + d6 - (if a / (r + d6) <? r + d6 then 1 else 0) < two256).
  { assert (r + d6 < two256).
    { unfold two256. change (2 ^ 256) with (340282366920938463463374607431768211456 * 340282366920938463463374607431768211456).
      change (2 ^ 128) with 340282366920938463463374607431768211456 in Hxm. lia. }
    destruct (a / (r + d6) <? r + d6); lia. }
  rewrite in256_ok by exact Hb. rewrite wsub_small in Hfin by exact Hb. rewrite Hfin. reflexivity.
Qed.

Definition is_root (a r : Z) : Prop := 0 <= r /\ r * r <= a /\ a < (r + 1) * (r + 1).

Lemma root_exists a : 0 <= a -> is_root a (Z.sqrt a).
Proof. intros H. pose proof (Z.sqrt_spec a H) as S. cbv zeta in S. unfold Z.succ in S. unfold is_root. pose proof (Z.sqrt_nonneg a). split; [lia|exact S]. Qed.
Lemma root_unique a r r' : is_root a r -> is_root a r' -> r = r'.
Proof. unfold is_root. intros. nia. Qed.

(** Exhaustive check of the small cases not covered by the error analysis. *)
Fixpoint check_small (n : nat) : bool :=
  match n with
  | O => true
  | S m => (sqrt (Z.of_nat m) =? Z.sqrt (Z.of_nat m)) &&
      match sqrt_strict (Z.of_nat m) with Some r => r =? Z.sqrt (Z.of_nat m) | None => false end && check_small m
  end.
Lemma check_small_sound n : check_small n = true -> forall m, (m < n)%nat ->
  sqrt (Z.of_nat m) = Z.sqrt (Z.of_nat m) /\ sqrt_strict (Z.of_nat m) = Some (Z.sqrt (Z.of_nat m)).
Proof.
  induction n as [|n IH]; intros H m Hm; [lia|]. cbn [check_small] in H.
  apply andb_prop in H. destruct H as [H1 H2]. apply andb_prop in H1. destruct H1 as [H1 H3].
  destruct (Nat.eq_dec m n) as [->|Hne].
  { split; [lia|]. destruct (sqrt_strict (Z.of_nat n)); [|discriminate]. f_equal. lia. }
  apply IH; [exact H2|lia].
Qed.
Lemma small_ok : check_small 16 = true.
Proof. vm_compute. reflexivity. Qed.

Lemma sqrt_as_refine a : 2 <= a < two256 ->
  exists x, sqrt a = refine a x /\ sqrt_strict a = refine_strict a x /\ 1 <= x /\ x < 2 ^ 128 /\ x * x <= a /\ a < 4 * (x * x) /\ (x = 1 \/ x mod 2 = 0).
Proof.
  intros [Ha1 Ha2]. unfold sqrt, sqrt_strict. replace (a <=? 1) with false by lia.
  cbv zeta.
  assert (E0 : est a a 1) by (unfold est; lia).
  assert (B0 : a < 2 ^ 128 * 2 ^ 128) by exact Ha2.
  pose proof (shift_est a 128 64 a 1 ltac:(lia) ltac:(lia) ltac:(lia) Ha2 E0 ltac:(reflexivity) B0) as S1.
  rewrite (shift_strict_ok a 128 64 a 1 ltac:(lia) ltac:(lia) ltac:(lia) E0 ltac:(reflexivity)). cbn [ob].
  destruct (sqrt_shift 128 (a, 1)) as [a1 x1]. destruct S1 as (E1 & B1 & _ & C1).
  assert (X1 : x1 <= 2 ^ 64) by (destruct C1 as [-> | ->]; [discriminate|reflexivity]).
  assert (F1 : x1 = 1 \/ x1 mod 2 = 0) by (destruct C1 as [-> | ->]; [left; reflexivity|right; reflexivity]).
  clear C1. change (2 ^ 128) with (2 ^ 64 * 2 ^ 64) in B1.
  assert (S2 := shift_est a 64 32 a1 x1 ltac:(lia) ltac:(lia) ltac:(lia) Ha2 E1).
  rewrite (shift_strict_ok a 64 32 a1 x1 ltac:(lia) ltac:(lia) ltac:(lia) E1 ltac:(eapply Z.le_lt_trans; [exact X1|reflexivity])). cbn [ob].
  destruct (sqrt_shift 64 (a1, x1)) as [a2 x2]. 
  destruct S2 as (E2 & B2 & _ & C2); [eapply Z.le_lt_trans; [exact X1|reflexivity]|exact B1|].
  assert (X2 : x2 <= 2 ^ 96).
  { change (2 ^ 96) with (2 ^ 64 * 2 ^ 32). destruct E1 as (_ & E1 & _). destruct C2 as [-> | ->]; nia. }
  assert (G : forall y z k, 0 < k -> (y = 1 \/ y mod 2 = 0) -> (z = y \/ z = y * 2 ^ k) -> (z = 1 \/ z mod 2 = 0)).
  { intros y z k Hk Hy [-> | ->]; [exact Hy|]. right. replace k with (k - 1 + 1) by lia.
    rewrite Z.pow_add_r by lia. rewrite Z.mul_assoc. change (2 ^ 1) with 2. apply Z.mod_mul. lia. }
  assert (F2 := G x1 x2 32 ltac:(lia) F1 C2). clear C2.
  change (2 ^ 64) with (2 ^ 32 * 2 ^ 32) in B2.
  assert (S3 := shift_est a 32 16 a2 x2 ltac:(lia) ltac:(lia) ltac:(lia) Ha2 E2).
  rewrite (shift_strict_ok a 32 16 a2 x2 ltac:(lia) ltac:(lia) ltac:(lia) E2 ltac:(eapply Z.le_lt_trans; [exact X2|reflexivity])). cbn [ob].
  destruct (sqrt_shift 32 (a2, x2)) as [a3 x3].
  destruct S3 as (E3 & B3 & _ & C3); [eapply Z.le_lt_trans; [exact X2|reflexivity]|exact B2|].
  assert (X3 : x3 <= 2 ^ 112).
  { change (2 ^ 112) with (2 ^ 96 * 2 ^ 16). destruct E2 as (_ & E2 & _). destruct C3 as [-> | ->]; nia. }
  assert (F3 := G x2 x3 16 ltac:(lia) F2 C3). clear C3.
  change (2 ^ 32) with (2 ^ 16 * 2 ^ 16) in B3.
  assert (S4 := shift_est a 16 8 a3 x3 ltac:(lia) ltac:(lia) ltac:(lia) Ha2 E3).
  rewrite (shift_strict_ok a 16 8 a3 x3 ltac:(lia) ltac:(lia) ltac:(lia) E3 ltac:(eapply Z.le_lt_trans; [exact X3|reflexivity])). cbn [ob].
  destruct (sqrt_shift 16 (a3, x3)) as [a4 x4].
  destruct S4 as (E4 & B4 & _ & C4); [eapply Z.le_lt_trans; [exact X3|reflexivity]|exact B3|].
  assert (X4 : x4 <= 2 ^ 120).
  { change (2 ^ 120) with (2 ^ 112 * 2 ^ 8). destruct E3 as (_ & E3 & _). destruct C4 as [-> | ->]; nia. }
  assert (F4 := G x3 x4 8 ltac:(lia) F3 C4). clear C4.
  change (2 ^ 16) with (2 ^ 8 * 2 ^ 8) in B4.
  assert (S5 := shift_est a 8 4 a4 x4 ltac:(lia) ltac:(lia) ltac:(lia) Ha2 E4).
  rewrite (shift_strict_ok a 8 4 a4 x4 ltac:(lia) ltac:(lia) ltac:(lia) E4 ltac:(eapply Z.le_lt_trans; [exact X4|reflexivity])). cbn [ob].
  destruct (sqrt_shift 8 (a4, x4)) as [a5 x5].
  destruct S5 as (E5 & B5 & _ & C5); [eapply Z.le_lt_trans; [exact X4|reflexivity]|exact B4|].
  assert (X5 : x5 <= 2 ^ 124).
  { change (2 ^ 124) with (2 ^ 120 * 2 ^ 4). destruct E4 as (_ & E4 & _). destruct C5 as [-> | ->]; nia. }
  assert (F5 := G x4 x5 4 ltac:(lia) F4 C5). clear C5.
  change (2 ^ 8) with (2 ^ 4 * 2 ^ 4) in B5.
  assert (S6 := shift_est a 4 2 a5 x5 ltac:(lia) ltac:(lia) ltac:(lia) Ha2 E5).
  rewrite (shift_strict_ok a 4 2 a5 x5 ltac:(lia) ltac:(lia) ltac:(lia) E5 ltac:(eapply Z.le_lt_trans; [exact X5|reflexivity])). cbn [ob].
  destruct (sqrt_shift 4 (a5, x5)) as [a6 x6].
  destruct S6 as (E6 & B6 & _ & C6); [eapply Z.le_lt_trans; [exact X5|reflexivity]|exact B5|].
  assert (X6 : x6 <= 2 ^ 126).
  { change (2 ^ 126) with (2 ^ 124 * 2 ^ 2). destruct E5 as (_ & E5 & _). destruct C6 as [-> | ->]; nia. }
  assert (F6 := G x5 x6 2 ltac:(lia) F5 C6). clear C6. change (2 ^ 4) with 16 in B6.
  change (wshl 1 2) with 4.
  destruct E6 as (H1 & H2 & H3 & H4).
  change (2 ^ 128) with (4 * 2 ^ 126). set (T := 2 ^ 126) in *.
  destruct (Z.leb_spec 4 a6) as [Hle|Hlt].
  - exists (x6 * 2). assert (Ew : wshl x6 1 = x6 * 2).
    { apply wshl_small. change (2 ^ 1) with 2. split; [lia|]. eapply Z.le_lt_trans with (T * 2); [lia|reflexivity]. }
    assert (Ei : in256 (x6 * 2) = Some (x6 * 2)).
    { apply in256_ok. split; [lia|]. eapply Z.le_lt_trans with (T * 2); [lia|reflexivity]. }
    rewrite Ew, Ei. clearbody T. split; [unfold refine; reflexivity|]. split; [reflexivity|].
    assert (0 <= x6 * x6) by (apply Z.mul_nonneg_nonneg; lia).
    assert (x6 * x6 * 4 <= x6 * x6 * a6) by (apply Z.mul_le_mono_nonneg_l; lia).
    assert (x6 * x6 * (a6 + 1) <= x6 * x6 * 16) by (apply Z.mul_le_mono_nonneg_l; lia).
    split; [lia|]. split; [lia|]. split; [lia|]. split; [lia|].
    right. apply Z.mod_mul. lia.
  - exists x6. clearbody T. split; [unfold refine; reflexivity|]. split; [reflexivity|].
    assert (0 <= x6 * x6) by (apply Z.mul_nonneg_nonneg; lia).
    assert (x6 * x6 * 1 <= x6 * x6 * a6) by (apply Z.mul_le_mono_nonneg_l; lia).
    assert (x6 * x6 * (a6 + 1) <= x6 * x6 * 4) by (apply Z.mul_le_mono_nonneg_l; lia).
    split; [lia|]. split; [lia|]. split; [lia|]. split; [lia|]. exact F6.
Qed.

Lemma sqrt_exact_strict a : is_u256 a -> sqrt a = Z.sqrt a /\ sqrt_strict a = Some (Z.sqrt a).
Proof.
  intros [H0 H1]. destruct (Z.lt_ge_cases a 16) as [Hs|Hl].
  - rewrite <- (Z2Nat.id a H0). apply (check_small_sound 16 small_ok). lia.
  - destruct (sqrt_as_refine a ltac:(lia)) as (x & -> & -> & X1 & X2 & X3 & X4 & X5).
    pose proof (root_exists a H0) as HR. destruct HR as (R0 & R1 & R2). set (r := Z.sqrt a) in *.
    assert (4 <= x \/ x < 4) as [Hx|Hx] by lia.
    + assert (Hev : x mod 2 = 0) by (destruct X5; lia).
      apply refine_large; try assumption; nia.
    + exfalso. assert (x = 1 \/ x = 2 \/ x = 3) as [ -> | [-> | ->]] by lia; try lia.
      destruct X5 as [X5|X5]; [lia|]. cbv in X5. discriminate.
Qed.

Lemma sqrt_exact a : is_u256 a -> sqrt a = Z.sqrt a.
Proof. intros H. exact (proj1 (sqrt_exact_strict a H)). Qed.

(** *** average *)
Lemma add_land_lxor a b : a + b = 2 * Z.land a b + Z.lxor a b.
Proof.
  assert (Ha : a = Z.ldiff a b + Z.land a b).
  { rewrite Z.add_nocarry_lxor.
    - apply Z.bits_inj'. intros n Hn. rewrite Z.lxor_spec, Z.ldiff_spec, Z.land_spec.
      destruct (Z.testbit a n), (Z.testbit b n); reflexivity.
    - apply Z.bits_inj'. intros n Hn. rewrite Z.land_spec, Z.ldiff_spec, Z.land_spec, Z.bits_0.
      destruct (Z.testbit a n), (Z.testbit b n); reflexivity. }
  assert (Hb : b = Z.ldiff b a + Z.land a b).
  { rewrite Z.add_nocarry_lxor.
    - apply Z.bits_inj'. intros n Hn. rewrite Z.lxor_spec, Z.ldiff_spec, Z.land_spec.
      destruct (Z.testbit a n), (Z.testbit b n); reflexivity.
    - apply Z.bits_inj'. intros n Hn. rewrite Z.land_spec, Z.ldiff_spec, Z.land_spec, Z.bits_0.
      destruct (Z.testbit a n), (Z.testbit b n); reflexivity. }
  assert (Hx : Z.lxor a b = Z.ldiff a b + Z.ldiff b a).
  { rewrite Z.add_nocarry_lxor.
    - apply Z.bits_inj'. intros n Hn. rewrite !Z.lxor_spec, !Z.ldiff_spec.
      destruct (Z.testbit a n), (Z.testbit b n); reflexivity.
    - apply Z.bits_inj'. intros n Hn. rewrite Z.land_spec, !Z.ldiff_spec, Z.bits_0.
      destruct (Z.testbit a n), (Z.testbit b n); reflexivity. }
  lia.
Qed.

Lemma average_exact a b : is_u256 a -> is_u256 b -> average a b = (a + b) / 2.
Proof.
  intros Ha Hb. unfold average, is_u256 in *.
  assert (E : (a + b) / 2 = Z.land a b + Z.lxor a b / 2).
  { rewrite (add_land_lxor a b), Z.mul_comm, Z.add_comm, Z.div_add by lia. lia. }
  rewrite E. apply wadd_small. rewrite <- E. split; [apply Z.div_pos; lia|]. apply Z.div_lt_upper_bound; lia.
Qed.
