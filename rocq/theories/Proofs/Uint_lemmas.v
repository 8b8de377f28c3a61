From Coq Require Import ZArith List Bool Lia.
From Verif Require Import Model.Uint Spec.Uint_spec.
Import ListNotations.
Open Scope Z_scope.

Notation limb x := (0 <= x < B).
Lemma B_eq : 2 ^ 64 = B. Proof. reflexivity. Qed.
Lemma B_pos : 0 < B. Proof. reflexivity. Qed.
Lemma B2_eq : 2 ^ 128 = B * B. Proof. reflexivity. Qed.
#[global] Opaque B.
Definition Bp (n : nat) : Z := B ^ Z.of_nat n.
Lemma Bp_0 : Bp 0 = 1. Proof. reflexivity. Qed.
Lemma Bp_S n : Bp (S n) = B * Bp n.
Proof. unfold Bp. rewrite Nat2Z.inj_succ, Z.pow_succ_r; lia. Qed.
Lemma Bp_pos n : 0 < Bp n.
Proof. unfold Bp. apply Z.pow_pos_nonneg; [apply B_pos|lia]. Qed.
Lemma Bp_add n m : Bp (n + m) = Bp n * Bp m.
Proof. unfold Bp. rewrite Nat2Z.inj_add, Z.pow_add_r; lia. Qed.
Lemma modulus_Bp N : modulus N = Bp N.
Proof. unfold modulus, Bp. rewrite <- B_eq, <- Z.pow_mul_r; lia. Qed.

Definition val_cons x l : val (x :: l) = x + B * val l := eq_refl.
Lemma val_app a b : val (a ++ b) = val a + Bp (length a) * val b.
Proof.
  induction a as [|x a IH]; [cbn [app length val]; rewrite Bp_0; lia|].
  cbn [app length]. rewrite !val_cons, IH, Bp_S. ring.
Qed.
Lemma limbs_cons_iff N x l : limbs N (x :: l) <-> limb x /\ exists n, N = S n /\ limbs n l.
Proof.
  unfold limbs. cbn. split.
  - intros [H H']. inversion H'; subst. split; [assumption|]. eauto.
  - intros (H & n & -> & H1 & H2). auto.
Qed.
Lemma limbs_cons n x l : limb x -> limbs n l -> limbs (S n) (x :: l).
Proof. intros. apply limbs_cons_iff. eauto. Qed.
Lemma limbs_nil : limbs 0 []. Proof. split; auto. Qed.
Lemma limbs_inv_S n l : limbs (S n) l -> exists x l', l = x :: l' /\ limb x /\ limbs n l'.
Proof.
  intros H. destruct l as [|x l]; [destruct H; discriminate|].
  apply limbs_cons_iff in H as (H & m & E & H'). injection E as <-. eauto.
Qed.
Lemma limbs_inv_0 l : limbs 0 l -> l = [].
Proof. intros [H _]. destruct l; [auto|discriminate]. Qed.
Lemma limbs_len N l : limbs N l -> length l = N. Proof. intros [H _]; auto. Qed.
Lemma limbs_app n m a b : limbs n a -> limbs m b -> limbs (n + m) (a ++ b).
Proof.
  intros [H1 H2] [H3 H4]. split; [rewrite app_length; lia|]. apply Forall_app; auto.
Qed.
Lemma limbs_rev n a : limbs n a -> limbs n (rev a).
Proof. intros [H1 H2]. split; [rewrite rev_length; auto|]. apply Forall_rev; auto. Qed.
Lemma limbs_nth n a i : limbs n a -> limb (nth i a 0).
Proof.
  intros [_ H]. destruct (Nat.lt_ge_cases i (length a)) as [E|E].
  - rewrite Forall_forall in H. apply H, nth_In, E.
  - rewrite nth_overflow by lia. pose proof B_pos. lia.
Qed.
Lemma val_bound N l : limbs N l -> 0 <= val l < Bp N.
Proof.
  revert N. induction l as [|x l IH]; intros N H.
  - destruct H as [<- _]. cbn [length val]. rewrite Bp_0. lia.
  - apply limbs_cons_iff in H as (H & n & -> & H'). rewrite val_cons, Bp_S. specialize (IH _ H').
    nia.
Qed.
Lemma val_inj N a b : limbs N a -> limbs N b -> val a = val b -> a = b.
Proof.
  revert a b. induction N as [|N IH]; intros a b Ha Hb E.
  - apply limbs_inv_0 in Ha, Hb. congruence.
  - apply limbs_inv_S in Ha as (x & a' & -> & Hx & Ha), Hb as (y & b' & -> & Hy & Hb).
    rewrite !val_cons in E.
    assert (Hm : (x + B * val a') mod B = (y + B * val b') mod B) by congruence.
    rewrite !(Z.mul_comm B), !Z_mod_plus_full, !Z.mod_small in Hm by assumption. subst y.
    f_equal. apply IH; auto. pose proof B_pos. nia.
Qed.
Lemma limbs_ZERO N : limbs N (ZERO N).
Proof.
  unfold ZERO. split; [apply repeat_length|]. apply Forall_forall. intros x H. apply repeat_spec in H.
  subst. lia.
Qed.
Lemma val_repeat0 N : val (repeat 0 N) = 0.
Proof. induction N; [auto|]. cbn [repeat]. rewrite val_cons, IHN. lia. Qed.
Lemma val_ZERO N : val (ZERO N) = 0. Proof. apply val_repeat0. Qed.

(** ** Limb operations *)
Lemma u64_small x : limb x -> u64 x = x. Proof. intros. unfold u64. apply Z.mod_small; auto. Qed.
Lemma u128_small x : 0 <= x < B * B -> u128 x = x.
Proof. intros. unfold u128. rewrite B2_eq. apply Z.mod_small; auto. Qed.
Lemma shr64 x : Z.shiftr x 64 = x / B. Proof. rewrite Z.shiftr_div_pow2 by lia. reflexivity. Qed.
Lemma split_wide x : 0 <= x < B * B ->
  limb (u64 x) /\ limb (u64 (Z.shiftr x 64)) /\ u64 x + B * u64 (Z.shiftr x 64) = x.
Proof.
  intros H. pose proof B_pos. rewrite shr64.
  assert (0 <= x / B < B).
  { split; [apply Z.div_pos; lia|]. apply Z.div_lt_upper_bound; lia. }
  rewrite (u64_small (x / B)) by auto. split; [apply Z.mod_pos_bound; auto|]. split; [auto|].
  unfold u64. rewrite (Z.div_mod x B) at 3 by lia. lia.
Qed.
Lemma widening_mul_eq a b : limb a -> limb b -> widening_mul a b = a * b.
Proof. intros. apply u128_small. nia. Qed.
Lemma limb_prod a b : limb a -> limb b -> 0 <= a * b <= (B - 1) * (B - 1).
Proof. intros. nia. Qed.
Lemma mac_ok a b c : limb a -> limb b -> limb c ->
  limb (fst (mac a b c)) /\ limb (snd (mac a b c)) /\ fst (mac a b c) + B * snd (mac a b c) = a + b * c.
Proof.
  intros. pose proof (limb_prod b c). unfold mac. cbn [fst snd]. rewrite widening_mul_eq, u128_small by (auto; nia).
  apply split_wide. nia.
Qed.
Lemma carrying_mac_ok a b c k : limb a -> limb b -> limb c -> limb k ->
  limb (fst (carrying_mac a b c k)) /\ limb (snd (carrying_mac a b c k)) /\
  fst (carrying_mac a b c k) + B * snd (carrying_mac a b c k) = a + b * c + k.
Proof.
  intros. pose proof (limb_prod b c ltac:(auto) ltac:(auto)). unfold carrying_mac. cbn [fst snd].
  rewrite widening_mul_eq by auto. rewrite (u128_small (a + b * c)) by nia. rewrite u128_small by nia.
  apply split_wide. nia.
Qed.
Lemma adc_ok a b k : limb a -> limb b -> limb k ->
  limb (fst (adc a b k)) /\ limb (snd (adc a b k)) /\ fst (adc a b k) + B * snd (adc a b k) = a + b + k.
Proof.
  intros. assert (3 < B) by reflexivity. unfold adc. cbn [fst snd]. rewrite u128_small by nia. apply split_wide. nia.
Qed.
Lemma adc_assign_ok a b k : limb a -> limb b ->
  limb (fst (adc_assign a b k)) /\
  fst (adc_assign a b k) + B * Z.b2z (snd (adc_assign a b k)) = a + b + Z.b2z k.
Proof.
  intros. assert (3 < B) by reflexivity. assert (0 <= Z.b2z k <= 1) by (destruct k; cbn; lia).
  unfold adc_assign. cbn [fst snd].
  rewrite u128_small by nia. destruct (split_wide (a + b + Z.b2z k)) as (H3 & H4 & H5); [nia|].
  split; [auto|]. rewrite <- H5 at 3. f_equal. f_equal.
  rewrite shr64 in *.
  assert (0 <= (a + b + Z.b2z k) / B < 2).
  { split; [apply Z.div_pos; lia|]. apply Z.div_lt_upper_bound; lia. }
  rewrite u64_small by lia. set (q := _ / B) in *. assert (q = 0 \/ q = 1) as [-> | ->] by lia; reflexivity.
Qed.
Lemma sbb_ok a b k : limb a -> limb b -> 0 <= k <= 1 ->
  limb (fst (sbb a b k)) /\ 0 <= snd (sbb a b k) <= 1 /\ fst (sbb a b k) - B * snd (sbb a b k) = a - b - k.
Proof.
  intros. assert (3 < B) by reflexivity. unfold sbb. cbn [fst snd]. rewrite u128_small by nia.
  set (x := B + a - b - k). destruct (split_wide x) as (H3 & H4 & H5); [subst x; nia|].
  split; [auto|]. rewrite shr64 in *.
  assert (0 <= x / B < 2).
  { split; [apply Z.div_pos; lia|]. apply Z.div_lt_upper_bound; lia. }
  rewrite (u64_small (x / B)) in H5 by lia.
  destruct (x / B =? 0) eqn:E; [apply Z.eqb_eq in E|apply Z.eqb_neq in E]; split; try lia.
  assert (x / B = 1) by lia. lia.
Qed.
Lemma sbb_assign_ok a b k : limb a -> limb b ->
  limb (fst (sbb_assign a b k)) /\
  fst (sbb_assign a b k) - B * Z.b2z (snd (sbb_assign a b k)) = a - b - Z.b2z k.
Proof.
  intros Ha Hb. assert (3 < B) by reflexivity. assert (0 <= Z.b2z k <= 1) by (destruct k; cbn; lia).
  unfold sbb_assign, overflowing_sub. cbn [fst snd].
  split; [apply Z.mod_pos_bound; lia|].
  assert (E : u64 (a - b) = if a <? b then a - b + B else a - b).
  { destruct (a <? b) eqn:E; [apply Z.ltb_lt in E|apply Z.ltb_ge in E].
    - unfold u64. symmetry. apply (Z.mod_unique _ _ (-1)); lia.
    - apply u64_small. lia. }
  rewrite E.
  assert (E2 : forall y, limb y -> u64 (y - Z.b2z k) = if y <? Z.b2z k then y - Z.b2z k + B else y - Z.b2z k).
  { intros y Hy. destruct (y <? Z.b2z k) eqn:F; [apply Z.ltb_lt in F|apply Z.ltb_ge in F].
    - unfold u64. symmetry. apply (Z.mod_unique _ _ (-1)); lia.
    - apply u64_small. lia. }
  rewrite E2 by (destruct (Z.ltb_spec a b); lia).
  destruct (Z.ltb_spec a b); destruct (Z.ltb_spec (if true then a - b + B else a - b) (Z.b2z k));
    cbn [orb Z.b2z]; try lia;
    destruct (Z.ltb_spec (a - b) (Z.b2z k)); cbn [orb Z.b2z]; lia.
Qed.

(** ** Bit tricks *)
Lemma lor_disjoint h l n : 0 <= n -> 0 <= l < 2 ^ n -> Z.lor (2 ^ n * h) l = 2 ^ n * h + l.
Proof.
  intros Hn Hl.
  assert (L : Z.land (2 ^ n * h) l = 0).
  { apply Z.bits_inj'. intros i Hi. rewrite Z.land_spec, Z.bits_0.
    destruct (Z.lt_ge_cases i n).
    - rewrite Z.mul_comm, Z.mul_pow2_bits_low by lia. reflexivity.
    - replace (Z.testbit l i) with false; [apply andb_false_r|]. symmetry.
      destruct (Z.eq_dec l 0) as [->|]; [apply Z.bits_0|]. apply Z.bits_above_log2; [lia|].
      assert (Z.log2 l < n) by (apply Z.log2_lt_pow2; lia). lia. }
  rewrite <- Z.lxor_lor by exact L. symmetry. apply Z.add_nocarry_lxor. exact L.
Qed.
Lemma wasm_eq a b : limb a -> limb b -> widening_mul_wasm a b = a * b.
Proof.
  intros Ha Hb. assert (HB : B = 2 ^ 32 * 2 ^ 32) by reflexivity.
  unfold widening_mul_wasm.
  rewrite !(Z.shiftr_div_pow2 _ 32), !Z.shiftl_mul_pow2 by lia. rewrite B_eq.
  pose proof (Z.mod_pos_bound a (2 ^ 32) ltac:(lia)) as Hal.
  pose proof (Z.mod_pos_bound b (2 ^ 32) ltac:(lia)) as Hbl.
  assert (Hah : 0 <= a / 2 ^ 32 < 2 ^ 32).
  { split; [apply Z.div_pos; lia|]. apply Z.div_lt_upper_bound; lia. }
  assert (Hbh : 0 <= b / 2 ^ 32 < 2 ^ 32).
  { split; [apply Z.div_pos; lia|]. apply Z.div_lt_upper_bound; lia. }
  pose proof (Z.div_mod a (2 ^ 32) ltac:(lia)) as Ea. pose proof (Z.div_mod b (2 ^ 32) ltac:(lia)) as Eb.
  set (al := a mod 2 ^ 32) in *. set (ah := a / 2 ^ 32) in *.
  set (bl := b mod 2 ^ 32) in *. set (bh := b / 2 ^ 32) in *.
  clearbody al ah bl bh. set (D := 2 ^ 32) in *. assert (HD : D = 4294967296) by reflexivity. clearbody D.
  assert (M : forall x y, 0 <= x < D -> 0 <= y < D -> 0 <= x * y <= (D - 1) * (D - 1)) by (clear; intros; nia).
  pose proof (M _ _ Hal Hbl). pose proof (M _ _ Hal Hbh). pose proof (M _ _ Hah Hbl). pose proof (M _ _ Hah Hbh).
  assert (E : B * (ah * bh) + al * bl + (al * bh * D + ah * bl * D) = a * b).
  { rewrite Ea, Eb, HB. ring. }
  clear Ea Eb M Hal Hah Hbl Hbh.
  assert (HBv : B = 18446744073709551616) by reflexivity.
  pose proof (limb_prod a b Ha Hb). clear Ha Hb. set (ab := a * b) in *. clearbody ab.
  set (p1 := al * bl) in *. set (p2 := al * bh) in *. set (p3 := ah * bl) in *. set (p4 := ah * bh) in *.
  clearbody p1 p2 p3 p4. rewrite HD in *. clear HB.
  rewrite !u64_small by lia.
  rewrite (u128_small (p2 * _)), (u128_small (p3 * _)), (u128_small (p4 * B)) by lia.
  rewrite (u128_small (_ * _ + _)) by lia.
  rewrite Z.lor_comm, (Z.mul_comm p4 B), <- B_eq, lor_disjoint by (rewrite ?B_eq; lia).
  rewrite B_eq. rewrite E. apply u128_small. lia.
Qed.

(** ** Addition and subtraction *)
Lemma ct_adc_ok N a b k : limbs N a -> limbs N b -> limb k -> 
  limbs N (fst (ct_adc a b k)) /\ limb (snd (ct_adc a b k)) /\
  val (fst (ct_adc a b k)) + Bp N * snd (ct_adc a b k) = val a + val b + k.
Proof.
  revert a b k. induction N as [|N IH]; intros a b k Ha Hb Hk.
  - apply limbs_inv_0 in Ha, Hb. subst. rewrite Bp_0. cbn -[Z.mul Z.add Z.sub Z.b2z]. split; [apply limbs_nil|]. split; lia.
  - apply limbs_inv_S in Ha as (x & a' & -> & Hx & Ha), Hb as (y & b' & -> & Hy & Hb).
    cbn [ct_adc]. destruct (adc_ok x y k) as (H1 & H2 & H3); auto.
    destruct (adc x y k) as [s c]. cbn [fst snd] in *.
    destruct (IH a' b' c) as (H4 & H5 & H6); auto.
    destruct (ct_adc a' b' c) as [r out]. cbn [fst snd] in *.
    split; [apply limbs_cons; auto|]. split; [auto|]. rewrite !val_cons, Bp_S. nia.
Qed.
Lemma ct_adc_carry1 N a b k : limbs N a -> limbs N b -> 0 <= k <= 1 -> 0 <= snd (ct_adc a b k) <= 1.
Proof.
  intros Ha Hb Hk. assert (3 < B) by reflexivity. destruct (ct_adc_ok N a b k) as (H1 & H2 & H3); auto; [lia|].
  pose proof (val_bound _ _ Ha). pose proof (val_bound _ _ Hb). pose proof (val_bound _ _ H1). nia.
Qed.
Lemma add_assign_ok N a b k : limbs N a -> limbs N b ->
  limbs N (fst (add_assign_loop a b k)) /\
  val (fst (add_assign_loop a b k)) + Bp N * Z.b2z (snd (add_assign_loop a b k)) = val a + val b + Z.b2z k.
Proof.
  revert a b k. induction N as [|N IH]; intros a b k Ha Hb.
  - apply limbs_inv_0 in Ha, Hb. subst. rewrite Bp_0. cbn -[Z.mul Z.add Z.sub Z.b2z]. split; [apply limbs_nil|]. lia.
  - apply limbs_inv_S in Ha as (x & a' & -> & Hx & Ha), Hb as (y & b' & -> & Hy & Hb).
    cbn [add_assign_loop]. destruct (adc_assign_ok x y k) as (H1 & H3); auto.
    destruct (adc_assign x y k) as [s c]. cbn [fst snd] in *.
    destruct (IH a' b' c) as (H4 & H6); auto.
    destruct (add_assign_loop a' b' c) as [r out]. cbn [fst snd] in *.
    split; [apply limbs_cons; auto|]. rewrite !val_cons, Bp_S. nia.
Qed.
Lemma sub_loop_ok N a b k : limbs N a -> limbs N b -> 0 <= k <= 1 ->
  limbs N (fst (sub_loop a b k)) /\ 0 <= snd (sub_loop a b k) <= 1 /\
  val (fst (sub_loop a b k)) - Bp N * snd (sub_loop a b k) = val a - val b - k.
Proof.
  revert a b k. induction N as [|N IH]; intros a b k Ha Hb Hk.
  - apply limbs_inv_0 in Ha, Hb. subst. rewrite Bp_0. cbn -[Z.mul Z.add Z.sub Z.b2z]. split; [apply limbs_nil|]. split; lia.
  - apply limbs_inv_S in Ha as (x & a' & -> & Hx & Ha), Hb as (y & b' & -> & Hy & Hb).
    cbn [sub_loop]. destruct (sbb_ok x y k) as (H1 & H2 & H3); auto.
    destruct (sbb x y k) as [s c]. cbn [fst snd] in *.
    destruct (IH a' b' c) as (H4 & H5 & H6); auto.
    destruct (sub_loop a' b' c) as [r out]. cbn [fst snd] in *.
    split; [apply limbs_cons; auto|]. split; [auto|]. rewrite !val_cons, Bp_S. nia.
Qed.
Lemma sub_assign_ok N a b k : limbs N a -> limbs N b ->
  limbs N (fst (sub_assign_loop a b k)) /\
  val (fst (sub_assign_loop a b k)) - Bp N * Z.b2z (snd (sub_assign_loop a b k)) = val a - val b - Z.b2z k.
Proof.
  revert a b k. induction N as [|N IH]; intros a b k Ha Hb.
  - apply limbs_inv_0 in Ha, Hb. subst. rewrite Bp_0. cbn -[Z.mul Z.add Z.sub Z.b2z]. split; [apply limbs_nil|]. lia.
  - apply limbs_inv_S in Ha as (x & a' & -> & Hx & Ha), Hb as (y & b' & -> & Hy & Hb).
    cbn [sub_assign_loop]. destruct (sbb_assign_ok x y k) as (H1 & H3); auto.
    destruct (sbb_assign x y k) as [s c]. cbn [fst snd] in *.
    destruct (IH a' b' c) as (H4 & H6); auto.
    destruct (sub_assign_loop a' b' c) as [r out]. cbn [fst snd] in *.
    split; [apply limbs_cons; auto|]. rewrite !val_cons, Bp_S. nia.
Qed.

(** Flags and wrapped values from the exact equations. *)
Lemma wrap_up N v s c : 0 <= v < Bp N -> v + Bp N * Z.b2z c = s ->
  v = s mod Bp N /\ (c = true <-> Bp N <= s) /\ (s < Bp N -> v = s).
Proof.
  intros Hv E. destruct c; cbn [Z.b2z] in E.
  - split; [|split; [|lia]]; [apply (Z.mod_unique_pos _ _ 1); lia|]. split; [lia|auto].
  - split; [|split; [|lia]]; [apply (Z.mod_unique_pos _ _ 0); lia|]. split; [discriminate|lia].
Qed.
Lemma wrap_down N v s c : 0 <= v < Bp N -> v - Bp N * Z.b2z c = s ->
  v = s mod Bp N /\ (c = true <-> s < 0) /\ (0 <= s -> v = s).
Proof.
  intros Hv E. destruct c; cbn [Z.b2z] in E.
  - split; [|split; [|lia]]; [apply (Z.mod_unique_pos _ _ (-1)); lia|]. split; [lia|auto].
  - split; [|split; [|lia]]; [apply (Z.mod_unique_pos _ _ 0); lia|]. split; [discriminate|lia].
Qed.
Lemma b2z_carry k : 0 <= k <= 1 -> Z.b2z (negb (k =? 0)) = k.
Proof. intros. assert (k = 0 \/ k = 1) as [-> | ->] by lia; reflexivity. Qed.

Lemma ct_checked_add_ok N a b : limbs N a -> limbs N b ->
  limbs N (fst (ct_checked_add a b)) /\
  val (fst (ct_checked_add a b)) + Bp N * Z.b2z (snd (ct_checked_add a b)) = val a + val b.
Proof.
  intros Ha Hb. pose proof (ct_adc_carry1 N a b 0 Ha Hb ltac:(lia)) as Hc.
  pose proof B_pos. destruct (ct_adc_ok N a b 0) as (H1 & H2 & H3); auto; [lia|]. unfold ct_checked_add.
  destruct (ct_adc a b 0) as [r c]. cbn [fst snd] in *. rewrite b2z_carry by auto. split; [auto|lia].
Qed.
Lemma ct_checked_sub_ok N a b : limbs N a -> limbs N b ->
  limbs N (fst (ct_checked_sub a b)) /\
  val (fst (ct_checked_sub a b)) - Bp N * Z.b2z (snd (ct_checked_sub a b)) = val a - val b.
Proof.
  intros Ha Hb. destruct (sub_loop_ok N a b 0) as (H1 & H2 & H3); auto; [lia|]. unfold ct_checked_sub.
  destruct (sub_loop a b 0) as [r c]. cbn [fst snd] in *. rewrite b2z_carry by auto. split; [auto|lia].
Qed.
Lemma ct_wrapping_sub_ok N a b : limbs N a -> limbs N b ->
  limbs N (ct_wrapping_sub a b) /\ val (ct_wrapping_sub a b) = (val a - val b) mod Bp N.
Proof.
  intros Ha Hb. destruct (ct_checked_sub_ok N a b) as [H1 H2]; auto. split; [apply H1|].
  apply (wrap_down N _ _ _ (val_bound _ _ H1) H2).
Qed.
Lemma ct_wrapping_add_ok N a b : limbs N a -> limbs N b ->
  limbs N (ct_wrapping_add a b) /\ val (ct_wrapping_add a b) = (val a + val b) mod Bp N.
Proof.
  intros Ha Hb. pose proof B_pos. destruct (ct_adc_ok N a b 0) as (H1 & H2 & H3); auto; [lia|].
  split; [apply H1|]. unfold ct_wrapping_add. pose proof (val_bound _ _ H1).
  apply (Z.mod_unique_pos _ _ (snd (ct_adc a b 0))); lia.
Qed.

(** ** Comparison *)
Definition bval (l : list Z) := val (rev l).
Lemma bval_cons x l : bval (x :: l) = x * Bp (length l) + bval l.
Proof. unfold bval. cbn [rev]. rewrite val_app, rev_length, val_cons. cbn [val]. lia. Qed.
Lemma bval_bound N l : limbs N l -> 0 <= bval l < Bp N.
Proof. intros. apply val_bound, limbs_rev. auto. Qed.
Lemma bval_rev l : bval (rev l) = val l.
Proof. unfold bval. rewrite rev_involutive. reflexivity. Qed.
Ltac cmp_step IH x y a b Hx Hy Ha Hb :=
  rewrite !bval_cons, (limbs_len _ _ Ha), (limbs_len _ _ Hb);
  pose proof (bval_bound _ _ Ha); pose proof (bval_bound _ _ Hb).
Lemma ge_be_ok N a b : limbs N a -> limbs N b -> ge_be a b = (bval b <=? bval a).
Proof.
  revert a b. induction N as [|N IH]; intros a b Ha Hb.
  - apply limbs_inv_0 in Ha, Hb. subst. reflexivity.
  - apply limbs_inv_S in Ha as (x & a' & -> & Hx & Ha), Hb as (y & b' & -> & Hy & Hb).
    cmp_step IH x y a' b' Hx Hy Ha Hb. cbn [ge_be]. rewrite IH by auto.
    destruct (Z.ltb_spec y x); [symmetry; apply Z.leb_le; nia|].
    destruct (Z.ltb_spec x y); [symmetry; apply Z.leb_gt; nia|].
    assert (x = y) by lia. subst. apply eq_true_iff_eq. rewrite !Z.leb_le. lia.
Qed.
Lemma gt_be_ok N a b : limbs N a -> limbs N b -> gt_be a b = (bval b <? bval a).
Proof.
  revert a b. induction N as [|N IH]; intros a b Ha Hb.
  - apply limbs_inv_0 in Ha, Hb. subst. reflexivity.
  - apply limbs_inv_S in Ha as (x & a' & -> & Hx & Ha), Hb as (y & b' & -> & Hy & Hb).
    cmp_step IH x y a' b' Hx Hy Ha Hb. cbn [gt_be]. rewrite IH by auto.
    destruct (Z.ltb_spec y x); [symmetry; apply Z.ltb_lt; nia|].
    destruct (Z.ltb_spec x y); [symmetry; apply Z.ltb_ge; nia|].
    assert (x = y) by lia. subst. apply eq_true_iff_eq. rewrite !Z.ltb_lt. lia.
Qed.
Lemma le_be_ok N a b : limbs N a -> limbs N b -> le_be a b = (bval a <=? bval b).
Proof.
  revert a b. induction N as [|N IH]; intros a b Ha Hb.
  - apply limbs_inv_0 in Ha, Hb. subst. reflexivity.
  - apply limbs_inv_S in Ha as (x & a' & -> & Hx & Ha), Hb as (y & b' & -> & Hy & Hb).
    cmp_step IH x y a' b' Hx Hy Ha Hb. cbn [le_be]. rewrite IH by auto.
    destruct (Z.ltb_spec x y); [symmetry; apply Z.leb_le; nia|].
    destruct (Z.ltb_spec y x); [symmetry; apply Z.leb_gt; nia|].
    assert (x = y) by lia. subst. apply eq_true_iff_eq. rewrite !Z.leb_le. lia.
Qed.
Lemma lt_be_ok N a b : limbs N a -> limbs N b -> lt_be a b = (bval a <? bval b).
Proof.
  revert a b. induction N as [|N IH]; intros a b Ha Hb.
  - apply limbs_inv_0 in Ha, Hb. subst. reflexivity.
  - apply limbs_inv_S in Ha as (x & a' & -> & Hx & Ha), Hb as (y & b' & -> & Hy & Hb).
    cmp_step IH x y a' b' Hx Hy Ha Hb. cbn [lt_be]. rewrite IH by auto.
    destruct (Z.ltb_spec x y); [symmetry; apply Z.ltb_lt; nia|].
    destruct (Z.ltb_spec y x); [symmetry; apply Z.ltb_ge; nia|].
    assert (x = y) by lia. subst. apply eq_true_iff_eq. rewrite !Z.ltb_lt. lia.
Qed.
Lemma cmp_be_ok N a b : limbs N a -> limbs N b -> cmp_be a b = (bval a ?= bval b).
Proof.
  revert a b. induction N as [|N IH]; intros a b Ha Hb.
  - apply limbs_inv_0 in Ha, Hb. subst. reflexivity.
  - apply limbs_inv_S in Ha as (x & a' & -> & Hx & Ha), Hb as (y & b' & -> & Hy & Hb).
    cmp_step IH x y a' b' Hx Hy Ha Hb. cbn [cmp_be]. rewrite IH by auto. symmetry.
    destruct (Z.compare_spec x y).
    + subst. destruct (Z.compare_spec (bval a') (bval b'));
        [apply Z.compare_eq_iff|apply Z.compare_lt_iff|apply Z.compare_gt_iff]; lia.
    + apply Z.compare_lt_iff. nia.
    + apply Z.compare_gt_iff. nia.
Qed.
Lemma ct_ge_ok N a b : limbs N a -> limbs N b -> ct_ge a b = (val b <=? val a).
Proof. intros. unfold ct_ge. rewrite (ge_be_ok N), !bval_rev by (apply limbs_rev; auto). auto. Qed.
Lemma ct_gt_ok N a b : limbs N a -> limbs N b -> ct_gt a b = (val b <? val a).
Proof. intros. unfold ct_gt. rewrite (gt_be_ok N), !bval_rev by (apply limbs_rev; auto). auto. Qed.
Lemma ct_le_ok N a b : limbs N a -> limbs N b -> ct_le a b = (val a <=? val b).
Proof. intros. unfold ct_le. rewrite (le_be_ok N), !bval_rev by (apply limbs_rev; auto). auto. Qed.
Lemma ct_lt_ok N a b : limbs N a -> limbs N b -> ct_lt a b = (val a <? val b).
Proof. intros. unfold ct_lt. rewrite (lt_be_ok N), !bval_rev by (apply limbs_rev; auto). auto. Qed.
Lemma cmp_ok N a b : limbs N a -> limbs N b -> cmp a b = (val a ?= val b).
Proof. intros. unfold cmp. rewrite (cmp_be_ok N), !bval_rev by (apply limbs_rev; auto). auto. Qed.
Lemma ct_eq_iff N a b : limbs N a -> limbs N b -> ct_eq a b = true <-> a = b.
Proof.
  revert a b. induction N as [|N IH]; intros a b Ha Hb.
  - apply limbs_inv_0 in Ha, Hb. subst. split; reflexivity.
  - apply limbs_inv_S in Ha as (x & a' & -> & Hx & Ha), Hb as (y & b' & -> & Hy & Hb).
    cbn [ct_eq]. destruct (Z.eqb_spec x y); cbn [negb].
    + rewrite IH by auto. subst. split; [congruence|]. intros E. injection E. auto.
    + split; [discriminate|congruence].
Qed.
Lemma ct_eq_ok N a b : limbs N a -> limbs N b -> ct_eq a b = (val a =? val b).
Proof.
  intros. apply eq_true_iff_eq. rewrite (ct_eq_iff N), Z.eqb_eq by auto.
  split; [congruence|apply (val_inj N); auto].
Qed.
Lemma ct_is_zero_ok N a : limbs N a -> ct_is_zero a = (val a =? 0).
Proof.
  intros H. unfold ct_is_zero. rewrite (limbs_len _ _ H), (ct_eq_ok N), val_ZERO by (auto using limbs_ZERO). auto.
Qed.

(** ** Bits *)
Lemma testbit_low x v i : limb x -> 0 <= i < 64 -> Z.testbit (x + B * v) i = Z.testbit x i.
Proof.
  intros Hx Hi. rewrite <- B_eq in *. 
  rewrite <- (Z.mod_pow2_bits_low (x + 2 ^ 64 * v) 64 i) by lia.
  rewrite (Z.mul_comm (2 ^ 64)), Z_mod_plus_full, Z.mod_small by lia. auto.
Qed.
Lemma testbit_high x v i : limb x -> 64 <= i -> Z.testbit (x + B * v) i = Z.testbit v (i - 64).
Proof.
  intros Hx Hi. rewrite <- B_eq in *. replace i with ((i - 64) + 64) at 1 by lia.
  rewrite <- Z.div_pow2_bits by lia. f_equal. rewrite (Z.mul_comm (2 ^ 64)), Z_div_plus_full, Z.div_small by lia. lia.
Qed.
Lemma testbit_big v n i : 0 <= v < 2 ^ n -> n <= i -> Z.testbit v i = false.
Proof.
  intros Hv Hi. destruct (Z.eq_dec v 0) as [->|]; [apply Z.bits_0|]. apply Z.bits_above_log2; [lia|].
  assert (Z.log2 v < n) by (apply Z.log2_lt_pow2; lia). lia.
Qed.
Lemma Bp_pow2 N : Bp N = 2 ^ (64 * Z.of_nat N).
Proof. rewrite <- modulus_Bp. reflexivity. Qed.
Lemma land_mask x i : 0 <= i < 64 -> negb (Z.land x (u64 (Z.shiftl 1 i)) =? 0) = Z.testbit x i.
Proof.
  intros Hi. rewrite Z.shiftl_1_l. unfold u64. rewrite Z.mod_small.
  2:{ split; [apply Z.pow_nonneg; lia|]. rewrite <- B_eq. apply Z.pow_lt_mono_r; lia. }
  destruct (Z.testbit x i) eqn:E.
  - apply negb_true_iff, Z.eqb_neq. intros H.
    assert (F : Z.testbit (Z.land x (2 ^ i)) i = true).
    { rewrite Z.land_spec, E, Z.pow2_bits_true by lia. reflexivity. }
    rewrite H, Z.bits_0 in F. discriminate.
  - apply negb_false_iff, Z.eqb_eq. apply Z.bits_inj'. intros j Hj. rewrite Z.land_spec, Z.bits_0.
    destruct (Z.eq_dec i j) as [<-|]; [rewrite E; auto|]. rewrite Z.pow2_bits_false by lia. apply andb_false_r.
Qed.
Lemma testbit_nth N a i : limbs N a -> 0 <= i < 64 * Z.of_nat N ->
  Z.testbit (nth (Z.to_nat (i / 64)) a 0) (i - 64 * (i / 64)) = Z.testbit (val a) i.
Proof.
  revert a i. induction N as [|N IH]; intros a i Ha Hi; [lia|].
  apply limbs_inv_S in Ha as (x & a' & -> & Hx & Ha). rewrite val_cons.
  destruct (Z.lt_ge_cases i 64).
  - rewrite Z.div_small by lia. cbn [Z.to_nat nth]. rewrite testbit_low by lia. f_equal. lia.
  - rewrite testbit_high by lia. rewrite <- IH by (auto; lia).
    assert (E : i / 64 = (i - 64) / 64 + 1).
    { replace i with ((i - 64) + 1 * 64) at 1 by lia. rewrite Z.div_add by lia. lia. }
    rewrite E. assert (0 <= (i - 64) / 64) by (apply Z.div_pos; lia).
    rewrite Z2Nat.inj_add by lia. change (Z.to_nat 1) with 1%nat. rewrite Nat.add_1_r. cbn [nth].
    f_equal. lia.
Qed.
Lemma ct_get_bit_ok N a i : limbs N a -> 0 <= i -> ct_get_bit a i = Z.testbit (val a) i.
Proof.
  intros Ha Hi. unfold ct_get_bit. rewrite (limbs_len _ _ Ha).
  destruct (Z.leb_spec (64 * Z.of_nat N) i).
  - symmetry. apply (testbit_big _ (64 * Z.of_nat N)); [|lia]. rewrite <- Bp_pow2. apply val_bound; auto.
  - rewrite land_mask; [apply (testbit_nth N); auto|].
    pose proof (Z.div_mod i 64). pose proof (Z.mod_pos_bound i 64). lia.
Qed.
Lemma land_1 x : Z.land x 1 = x mod 2.
Proof. change 1 with (Z.ones 1). rewrite Z.land_ones by lia. reflexivity. Qed.
Lemma val_mod2 a : val a mod 2 = nth 0 a 0 mod 2.
Proof.
  destruct a as [|x a]; [reflexivity|]. rewrite val_cons. cbn [nth].
  change B with (2 * 2 ^ 63). rewrite <- Z.mul_assoc, (Z.mul_comm 2), Z_mod_plus_full. reflexivity.
Qed.
Lemma ct_is_odd_ok a : ct_is_odd a = Z.odd (val a).
Proof.
  unfold ct_is_odd. rewrite land_1, <- val_mod2, Zmod_odd. destruct (Z.odd (val a)); reflexivity.
Qed.
Lemma ct_is_even_ok a : ct_is_even a = Z.even (val a).
Proof.
  unfold ct_is_even. rewrite land_1, <- val_mod2, Zmod_even. destruct (Z.even (val a)); reflexivity.
Qed.
Lemma bit_length_spec v n : 0 <= v -> bit_size v n <-> n = bit_length v.
Proof.
  intros Hv. unfold bit_size, bit_length. split.
  - intros (H1 & H2 & H3). destruct (Z.eqb_spec v 0).
    + subst. destruct (Z.eq_dec n 0); [auto|]. assert (2 ^ (n - 1) <= 0) by (apply H3; lia).
      assert (0 < 2 ^ (n - 1)) by (apply Z.pow_pos_nonneg; lia). lia.
    + assert (n <> 0) by (intros ->; change (2 ^ 0) with 1 in H2; lia).
      assert (Z.log2 v = n - 1); [|lia]. apply Z.log2_unique; [lia|]. split; [apply H3; lia|].
      replace (Z.succ (n - 1)) with n by lia. auto.
  - intros ->. destruct (Z.eqb_spec v 0); [subst; cbn; lia|].
    pose proof (Z.log2_spec v ltac:(lia)). pose proof (Z.log2_nonneg v).
    replace (Z.log2 v + 1 - 1) with (Z.log2 v) by lia. replace (Z.log2 v + 1) with (Z.succ (Z.log2 v)) by lia.
    split; [lia|]. split; [lia|]. intros _. lia.
Qed.
Lemma bit_length_limb x : limb x -> 0 <= bit_length x <= 64.
Proof.
  intros Hx. unfold bit_length. destruct (Z.eqb_spec x 0); [lia|]. pose proof (Z.log2_nonneg x).
  rewrite <- B_eq in Hx. assert (Z.log2 x < 64) by (apply Z.log2_lt_pow2; lia). lia.
Qed.
Lemma num_bits_be_ok N l : limbs N l -> num_bits_be l (64 * Z.of_nat N) = bit_length (bval l).
Proof.
  revert l. induction N as [|N IH]; intros l Hl.
  - apply limbs_inv_0 in Hl. subst. reflexivity.
  - apply limbs_inv_S in Hl as (x & l' & -> & Hx & Hl). cbn [num_bits_be]. unfold leading_zeros.
    rewrite bval_cons, (limbs_len _ _ Hl). pose proof (bval_bound _ _ Hl).
    destruct (Z.eq_dec x 0) as [->|].
    + change (bit_length 0) with 0. change (64 - 0 =? 64) with true. cbn [negb].
      replace (64 * Z.of_nat (S N) - (64 - 0)) with (64 * Z.of_nat N) by lia. rewrite IH by auto. f_equal.
    + assert (Hb : bit_length x = Z.log2 x + 1) by (unfold bit_length; destruct (Z.eqb_spec x 0); lia).
      pose proof (bit_length_limb x Hx). pose proof (Z.log2_nonneg x). rewrite Hb in *.
      destruct (Z.eqb_spec (64 - (Z.log2 x + 1)) 64); [lia|]. cbn [negb].
      apply bit_length_spec; [pose proof (Bp_pos N); nia|].
      pose proof (Z.log2_spec x ltac:(lia)) as [L1 L2]. unfold bit_size.
      replace (64 * Z.of_nat (S N) - (64 - (Z.log2 x + 1))) with (64 * Z.of_nat N + (Z.log2 x + 1)) by lia.
      replace (Z.succ (Z.log2 x)) with (Z.log2 x + 1) in L2 by lia.
      split; [lia|]. rewrite Z.pow_add_r, <- Bp_pow2 by lia. split; [nia|]. intros _.
      replace (64 * Z.of_nat N + (Z.log2 x + 1) - 1) with (64 * Z.of_nat N + Z.log2 x) by lia.
      rewrite Z.pow_add_r, <- Bp_pow2 by lia. nia.
Qed.
Lemma ct_num_bits_ok N a : limbs N a -> ct_num_bits a = bit_length (val a).
Proof.
  intros H. unfold ct_num_bits. rewrite (limbs_len _ _ H), num_bits_be_ok by (apply limbs_rev; auto).
  rewrite bval_rev. auto.
Qed.

(** ** Doubling and halving *)
Lemma mul2_loop_ok N a c : limbs N a -> 0 <= c <= 1 ->
  limbs N (fst (mul2_loop a c)) /\ 0 <= snd (mul2_loop a c) <= 1 /\
  val (fst (mul2_loop a c)) + Bp N * snd (mul2_loop a c) = 2 * val a + c.
Proof.
  revert a c. induction N as [|N IH]; intros a c Ha Hc.
  - apply limbs_inv_0 in Ha. subst. rewrite Bp_0. cbn -[Z.mul Z.add Z.sub Z.b2z]. split; [apply limbs_nil|]. lia.
  - apply limbs_inv_S in Ha as (x & a' & -> & Hx & Ha). cbn [mul2_loop].
    assert (HB : B = 2 * 2 ^ 63) by reflexivity.
    rewrite (Z.shiftr_div_pow2 x 63), Z.shiftl_mul_pow2 by lia.
    assert (Hq : 0 <= x / 2 ^ 63 <= 1).
    { split; [apply Z.div_pos; lia|]. assert (x / 2 ^ 63 < 2) by (apply Z.div_lt_upper_bound; lia). lia. }
    destruct (IH a' (x / 2 ^ 63)) as (H1 & H2 & H3); auto.
    destruct (mul2_loop a' (x / 2 ^ 63)) as [r out]. cbn [fst snd] in *.
    pose proof (Z.div_mod x (2 ^ 63) ltac:(lia)) as E. pose proof (Z.mod_pos_bound x (2 ^ 63) ltac:(lia)).
    assert (E2 : u64 (x * 2 ^ 1) = 2 * (x mod 2 ^ 63)).
    { unfold u64. symmetry. apply (Z.mod_unique_pos _ _ (x / 2 ^ 63)); [lia|].
      rewrite HB. change (2 ^ 1) with 2. lia. }
    rewrite E2. assert (L : Z.lor (2 * (x mod 2 ^ 63)) c = 2 * (x mod 2 ^ 63) + c).
    { apply (lor_disjoint _ c 1); lia. }
    rewrite L. split; [apply limbs_cons; [lia|auto]|]. split; [auto|].
    rewrite !val_cons, Bp_S. replace (val r) with (2 * val a' + x / 2 ^ 63 - Bp N * out) by lia.
    set (q := x / 2 ^ 63) in *. set (m := x mod 2 ^ 63) in *. rewrite E, HB. ring.
Qed.
Lemma ct_checked_mul2_ok N a : limbs N a ->
  limbs N (fst (ct_checked_mul2 a)) /\
  val (fst (ct_checked_mul2 a)) + Bp N * Z.b2z (snd (ct_checked_mul2 a)) = 2 * val a.
Proof.
  intros Ha. destruct (mul2_loop_ok N a 0) as (H1 & H2 & H3); auto; [lia|]. unfold ct_checked_mul2.
  destruct (mul2_loop a 0) as [r c]. cbn [fst snd] in *. rewrite b2z_carry by auto. split; [auto|lia].
Qed.
Lemma div2_be_ok N a c : limbs N a -> 0 <= c <= 1 ->
  limbs N (div2_be a (2 ^ 63 * c)) /\ bval (div2_be a (2 ^ 63 * c)) = (c * Bp N + bval a) / 2.
Proof.
  revert a c. induction N as [|N IH]; intros a c Ha Hc.
  - apply limbs_inv_0 in Ha. subst. cbn [div2_be]. rewrite Bp_0. split; [apply limbs_nil|].
    unfold bval. cbn [rev val]. symmetry. apply Z.div_small. lia.
  - apply limbs_inv_S in Ha as (x & a' & -> & Hx & Ha). cbn [div2_be].
    assert (HB : B = 2 * 2 ^ 63) by reflexivity.
    rewrite (Z.shiftr_div_pow2 x 1), Z.shiftl_mul_pow2 by lia. change (2 ^ 1) with 2.
    pose proof (Z.div_mod x 2 ltac:(lia)) as E. pose proof (Z.mod_pos_bound x 2 ltac:(lia)).
    assert (E2 : u64 (x * 2 ^ 63) = 2 ^ 63 * (x mod 2)).
    { unfold u64. symmetry. apply (Z.mod_unique_pos _ _ (x / 2)); [lia|]. rewrite HB. nia. }
    rewrite E2. destruct (IH a' (x mod 2)) as [H1 H2]; auto; [lia|].
    assert (Hq : 0 <= x / 2 < 2 ^ 63) by lia.
    rewrite Z.lor_comm, lor_disjoint by lia. split; [apply limbs_cons; [lia|auto]|].
    rewrite !bval_cons, H2, (limbs_len _ _ H1), (limbs_len _ _ Ha), Bp_S.
    rewrite <- Z.div_add_l by lia. f_equal. rewrite HB. set (q := x / 2) in *. set (m := x mod 2) in *. rewrite E. ring.
Qed.
Lemma div2_ok N a : limbs N a -> limbs N (div2 a) /\ val (div2 a) = val a / 2.
Proof.
  intros Ha. destruct (div2_be_ok N (rev a) 0) as [H1 H2]; [apply limbs_rev; auto|lia|].
  change (2 ^ 63 * 0) with 0 in *. unfold div2. split; [apply limbs_rev; auto|].
  change (bval (div2_be (rev a) 0) = val a / 2). rewrite H2, bval_rev. f_equal.
Qed.

(** ** Multiplication *)
Lemma upd_length a i x : length (upd a i x) = length a.
Proof. revert i. induction a; destruct i; cbn; auto. Qed.
Lemma upd_limbs N a i x : limbs N a -> limb x -> limbs N (upd a i x).
Proof.
  intros [H1 H2] Hx. split; [rewrite upd_length; auto|]. clear H1. revert i.
  induction H2 as [|y a Hy H IH]; destruct i; cbn; auto.
Qed.
Lemma upd_val a i x : (i < length a)%nat -> val (upd a i x) = val a + (x - nth i a 0) * Bp i.
Proof.
  revert i. induction a as [|y a IH]; intros i Hi; cbn in Hi; [lia|].
  destruct i; cbn [upd nth]; rewrite !val_cons; [rewrite Bp_0; lia|].
  rewrite IH by lia. rewrite Bp_S. ring.
Qed.
Lemma upd_nth_same a i x : (i < length a)%nat -> nth i (upd a i x) 0 = x.
Proof. revert i. induction a; destruct i; cbn; intros; try lia; auto. apply IHa. lia. Qed.
Lemma upd_nth_other a i j x : i <> j -> nth j (upd a i x) 0 = nth j a 0.
Proof. revert i j. induction a; destruct i, j; cbn; intros; try lia; auto. Qed.

Lemma mul_inner_ok N a rhs : limb a -> Forall (fun x => limb x) rhs -> forall k lo hi c,
  limbs N lo -> limbs N hi -> limb c -> (k + length rhs <= N + N)%nat ->
  let '(lo', hi', c') := mul_inner N a rhs k lo hi c in
  limbs N lo' /\ limbs N hi' /\ limb c' /\
  val lo' + Bp N * val hi' + Bp (k + length rhs) * c' = val lo + Bp N * val hi + Bp k * (a * val rhs + c) /\
  forall j, (k + length rhs <= N + j)%nat -> nth j hi' 0 = nth j hi 0.
Proof.
  intros Ha. induction 1 as [|b rhs Hb H IH]; intros k lo hi c Hlo Hhi Hc Hk; cbn [mul_inner length] in *.
  - rewrite Nat.add_0_r. cbn [val]. repeat split; try apply Hlo; try apply Hhi; try lia.
  - pose proof (limbs_len _ _ Hlo) as Llo. pose proof (limbs_len _ _ Hhi) as Lhi.
    destruct (Nat.leb_spec N k) as [E|E].
    + destruct (carrying_mac_ok (nth (k - N) hi 0) a b c) as (H1 & H2 & H3); auto; [eapply limbs_nth; eauto|].
      destruct (carrying_mac _ _ _ _) as [x c1]. cbn [fst snd] in *.
      specialize (IH (S k) lo (upd hi (k - N) x) c1 Hlo (upd_limbs _ _ _ _ Hhi H1) H2 ltac:(lia)).
      destruct (mul_inner N a rhs (S k) lo (upd hi (k - N) x) c1) as [[lo' hi'] c'].
      destruct IH as (I1 & I2 & I3 & I4 & I5). do 3 (split; [assumption|]). split.
      * replace (k + S (length rhs))%nat with (S k + length rhs)%nat by lia. rewrite I4.
        rewrite upd_val, val_cons, Bp_S by lia.
        assert (Ek : Bp k = Bp N * Bp (k - N)) by (rewrite <- Bp_add; f_equal; lia).
        rewrite Ek. set (P := Bp N). set (Q := Bp (k - N)).
        replace x with (nth (k - N) hi 0 + a * b + c - B * c1) by lia. ring.
      * intros j Hj. rewrite I5 by lia. apply upd_nth_other. lia.
    + destruct (carrying_mac_ok (nth k lo 0) a b c) as (H1 & H2 & H3); auto; [eapply limbs_nth; eauto|].
      destruct (carrying_mac _ _ _ _) as [x c1]. cbn [fst snd] in *.
      specialize (IH (S k) (upd lo k x) hi c1 (upd_limbs _ _ _ _ Hlo H1) Hhi H2 ltac:(lia)).
      destruct (mul_inner N a rhs (S k) (upd lo k x) hi c1) as [[lo' hi'] c'].
      destruct IH as (I1 & I2 & I3 & I4 & I5). do 3 (split; [assumption|]). split.
      * replace (k + S (length rhs))%nat with (S k + length rhs)%nat by lia. rewrite I4.
        rewrite upd_val, val_cons, Bp_S by lia.
        replace x with (nth k lo 0 + a * b + c - B * c1) by lia. ring.
      * intros j Hj. apply I5. lia.
Qed.
Lemma mul_outer_ok N lhs rhs : Forall (fun x => limb x) lhs -> limbs N rhs -> forall i lo hi,
  limbs N lo -> limbs N hi -> (i + length lhs = N)%nat -> (forall j, (i <= j)%nat -> nth j hi 0 = 0) ->
  let '(lo', hi') := mul_outer N lhs rhs i lo hi in
  limbs N lo' /\ limbs N hi' /\
  val lo' + Bp N * val hi' = val lo + Bp N * val hi + Bp i * (val lhs * val rhs).
Proof.
  intros Hl Hr. induction Hl as [|a lhs Ha H IH]; intros i lo hi Hlo Hhi Hi Hz; cbn [mul_outer length] in *.
  - cbn [val]. repeat split; try apply Hlo; try apply Hhi; lia.
  - destruct Hr as [Lr Fr]. pose proof (limbs_len _ _ Hhi) as Lhi. pose proof B_pos.
    pose proof (mul_inner_ok N a rhs Ha Fr i lo hi 0 Hlo Hhi ltac:(lia) ltac:(lia)) as M.
    destruct (mul_inner N a rhs i lo hi 0) as [[lo1 hi1] c]. destruct M as (M1 & M2 & M3 & M4 & M5).
    pose proof (limbs_len _ _ M2) as Lhi1.
    assert (Hi0 : nth i hi1 0 = 0) by (rewrite M5 by lia; apply Hz; lia).
    specialize (IH (S i) lo1 (upd hi1 i c) M1 (upd_limbs _ _ _ _ M2 M3) ltac:(lia)).
    destruct (mul_outer N lhs rhs (S i) lo1 (upd hi1 i c)) as [lo' hi'].
    destruct IH as (I1 & I2 & I3).
    + intros j Hj. rewrite upd_nth_other by lia. rewrite M5 by lia. apply Hz. lia.
    + split; [auto|]. split; [auto|]. rewrite I3, upd_val, Hi0, val_cons, Bp_S by lia.
      rewrite Lr in M4. rewrite (Bp_add i N) in M4. nia.
Qed.
Lemma ct_widening_mul_ok N a b : limbs N a -> limbs N b ->
  limbs N (fst (ct_widening_mul a b)) /\ limbs N (snd (ct_widening_mul a b)) /\
  val (fst (ct_widening_mul a b)) + Bp N * val (snd (ct_widening_mul a b)) = val a * val b.
Proof.
  intros Ha Hb. unfold ct_widening_mul. rewrite (limbs_len _ _ Ha).
  pose proof (mul_outer_ok N a b (proj2 Ha) Hb 0 (ZERO N) (ZERO N) (limbs_ZERO N) (limbs_ZERO N)) as M.
  destruct (mul_outer N a b 0 (ZERO N) (ZERO N)) as [lo hi]. cbn [fst snd].
  destruct M as (M1 & M2 & M3).
  - rewrite (limbs_len _ _ Ha). lia.
  - intros j _. apply nth_repeat.
  - split; [auto|]. split; [auto|]. rewrite M3, val_ZERO, Bp_0. lia.
Qed.
Lemma ct_mul_ok N a b r : limbs N a -> limbs N b ->
  ct_mul a b = Some r <-> limbs N r /\ val r = val a * val b.
Proof.
  intros Ha Hb. destruct (ct_widening_mul_ok N a b) as (H1 & H2 & H3); auto. unfold ct_mul.
  destruct (ct_widening_mul a b) as [lo hi]. cbn [fst snd] in *.
  rewrite (limbs_len _ _ Ha), (ct_eq_ok N) by (auto using limbs_ZERO). rewrite val_ZERO.
  pose proof (val_bound _ _ H1). pose proof (val_bound _ _ H2). destruct (Z.eqb_spec (val hi) 0) as [E|E].
  - rewrite E in H3. split.
    + intros F. injection F as <-. split; [auto|lia].
    + intros [Hr Er]. f_equal. apply (val_inj N); auto. lia.
  - split; [discriminate|]. intros [Hr Er]. pose proof (val_bound _ _ Hr). nia.
Qed.
Lemma ct_add_ok N a b r : limbs N a -> limbs N b ->
  ct_add a b = Some r <-> limbs N r /\ val r = val a + val b.
Proof.
  intros Ha Hb. pose proof B_pos. destruct (ct_adc_ok N a b 0) as (H1 & H2 & H3); auto; [lia|]. unfold ct_add.
  destruct (ct_adc a b 0) as [lo c]. cbn [fst snd] in *.
  pose proof (val_bound _ _ H1). destruct (Z.eqb_spec c 0) as [E|E].
  - rewrite E in H3. split.
    + intros F. injection F as <-. split; [auto|lia].
    + intros [Hr Er]. f_equal. apply (val_inj N); auto. lia.
  - split; [discriminate|]. intros [Hr Er]. pose proof (val_bound _ _ Hr). nia.
Qed.

Lemma mul_small N a b : limbs N a -> limbs N b -> val a * val b < Bp N ->
  exists x, limbs N x /\ val x = val a * val b.
Proof.
  intros Ha Hb H. destruct (ct_widening_mul_ok N a b) as (W1 & W2 & W3); auto.
  pose proof (val_bound _ _ W1). pose proof (val_bound _ _ W2). pose proof (Bp_pos N).
  exists (fst (ct_widening_mul a b)). split; [auto|].
  assert (val (snd (ct_widening_mul a b)) = 0) by nia. nia.
Qed.

(** ** Conversions *)
Lemma from_u64_ok N v : (0 < N)%nat -> limb v -> exists u, from_u64 N v = Some u /\ limbs N u /\ val u = v.
Proof.
  intros HN Hv. destruct N as [|n]; [lia|]. exists (v :: repeat 0 n). split; [auto|].
  split; [apply limbs_cons; auto; apply limbs_ZERO|]. rewrite val_cons, val_repeat0. lia.
Qed.
Lemma from_u128_ok N v u : (0 < N)%nat -> 0 <= v < 2 ^ 128 ->
  from_u128 N v = Some u <-> limbs N u /\ val u = v.
Proof.
  intros HN Hv. rewrite B2_eq in Hv. destruct (split_wide v Hv) as (H1 & H2 & H3). pose proof B_pos.
  assert (K : forall w, limbs N w -> val w = v -> (Some w = Some u <-> limbs N u /\ val u = v)).
  { intros w Hw Ew. split; [intros F; injection F as <-; auto|]. intros [Hu Eu]. f_equal.
    apply (val_inj N); auto. congruence. }
  unfold from_u128. destruct N as [|[|n]]; [lia| |].
  - destruct (Z.eqb_spec (u64 (Z.shiftr v 64)) 0) as [E|E].
    + apply K; [apply limbs_cons; auto using limbs_nil|]. rewrite val_cons. cbn [val]. lia.
    + split; [discriminate|]. intros [Hu Eu]. apply val_bound in Hu. rewrite Bp_S, Bp_0 in Hu. nia.
  - apply K; [do 2 (apply limbs_cons; auto); apply limbs_ZERO|].
    rewrite !val_cons, val_repeat0. lia.
Qed.

(** *** Bytes *)
Lemma to_le_bytes_length n x : length (to_le_bytes n x) = n.
Proof. revert x. induction n; cbn; auto. Qed.
Lemma to_le_bytes_byte n x : Forall (fun b => 0 <= b < 256) (to_le_bytes n x).
Proof. revert x. induction n; cbn; constructor; auto. apply Z.mod_pos_bound. lia. Qed.
Lemma from_to_le n x : 0 <= x < 256 ^ Z.of_nat n -> from_le_bytes (to_le_bytes n x) = x.
Proof.
  revert x. induction n as [|n IH]; intros x H; [cbn in *; lia|].
  cbn [to_le_bytes from_le_bytes]. rewrite Nat2Z.inj_succ, Z.pow_succ_r in H by lia.
  rewrite IH; [pose proof (Z.div_mod x 256); lia|].
  split; [apply Z.div_pos; lia|]. apply Z.div_lt_upper_bound; lia.
Qed.
Lemma from_le_bound l : Forall (fun b => 0 <= b < 256) l -> 0 <= from_le_bytes l < 256 ^ Z.of_nat (length l).
Proof.
  induction 1 as [|b l Hb H IH]; [cbn; lia|]. cbn [length from_le_bytes].
  rewrite Nat2Z.inj_succ, Z.pow_succ_r by lia. lia.
Qed.
Lemma to_from_le l : Forall (fun b => 0 <= b < 256) l -> to_le_bytes (length l) (from_le_bytes l) = l.
Proof.
  induction 1 as [|b l Hb H IH]; [auto|]. cbn [length from_le_bytes to_le_bytes].
  rewrite (Z.mul_comm 256), Z_mod_plus_full, Z.mod_small, Z_div_plus_full, Z.div_small by lia.
  cbn [Z.add]. rewrite IH. auto.
Qed.
Lemma from_le_bytes_value l : from_le_bytes l = bytes_value l.
Proof. induction l; cbn [from_le_bytes bytes_value]; congruence. Qed.
Lemma bytes_value_app a b : bytes_value (a ++ b) = bytes_value a + 256 ^ Z.of_nat (length a) * bytes_value b.
Proof.
  induction a as [|x a IH]; [cbn [app bytes_value length Z.of_nat]; lia|].
  cbn [app bytes_value length]. rewrite IH, Nat2Z.inj_succ, Z.pow_succ_r by lia. ring.
Qed.
Lemma into_bytes_le_length a : length (into_bytes_le a) = (8 * length a)%nat.
Proof. unfold into_bytes_le. induction a; [auto|]. cbn [flat_map length]. rewrite app_length, IHa, to_le_bytes_length. lia. Qed.
Lemma into_bytes_le_byte a : Forall (fun b => 0 <= b < 256) (into_bytes_le a).
Proof. unfold into_bytes_le. induction a; [constructor|]. cbn [flat_map]. apply Forall_app. split; auto using to_le_bytes_byte. Qed.
Lemma into_bytes_le_value N a : limbs N a -> bytes_value (into_bytes_le a) = val a.
Proof.
  unfold into_bytes_le. revert a. induction N as [|N IH]; intros a Ha.
  - apply limbs_inv_0 in Ha. subst. auto.
  - apply limbs_inv_S in Ha as (x & a' & -> & Hx & Ha). rewrite val_cons. cbn [flat_map].
    rewrite bytes_value_app, IH, <- from_le_bytes_value, from_to_le, to_le_bytes_length by auto. reflexivity.
Qed.
Lemma le_limbs_bytes N a : limbs N a -> le_limbs N (into_bytes_le a) = a.
Proof.
  unfold into_bytes_le. revert a. induction N as [|N IH]; intros a Ha.
  - apply limbs_inv_0 in Ha. subst. auto.
  - apply limbs_inv_S in Ha as (x & a' & -> & Hx & Ha). cbn [flat_map le_limbs].
    rewrite firstn_app, skipn_app, to_le_bytes_length, Nat.sub_diag, firstn_O, app_nil_r, skipn_O.
    rewrite firstn_all2, skipn_all2 by (rewrite to_le_bytes_length; lia).
    cbn [app]. rewrite IH by auto. rewrite from_to_le by auto. auto.
Qed.
Lemma le_limbs_limbs N l : Forall (fun b => 0 <= b < 256) l -> length l = (8 * N)%nat ->
  limbs N (le_limbs N l) /\ into_bytes_le (le_limbs N l) = l.
Proof.
  revert l. induction N as [|N IH]; intros l Hl E.
  - destruct l; [|discriminate]. split; [apply limbs_nil|auto].
  - cbn [le_limbs]. rewrite <- (firstn_skipn 8 l) in Hl. apply Forall_app in Hl as [H1 H2].
    destruct (IH (skipn 8 l)) as [I1 I2]; [auto|rewrite skipn_length; lia|].
    assert (L8 : length (firstn 8 l) = 8%nat) by (rewrite firstn_length; lia).
    split.
    + apply limbs_cons; [|auto]. pose proof (from_le_bound _ H1) as K. rewrite L8 in K. exact K.
    + unfold into_bytes_le in *. cbn [flat_map]. rewrite I2. rewrite <- L8 at 1.
      rewrite to_from_le by auto. apply firstn_skipn.
Qed.

(** *** Bit iterators *)
Lemma bits_be_binary n v : bits_be n v = binary n v.
Proof.
  unfold binary. induction n as [|n IH]; [auto|].
  cbn [bits_be]. rewrite seq_S, rev_app_distr. cbn [rev app map Nat.add]. rewrite IH. auto.
Qed.
Lemma bits_be_app n m v : bits_be (n + m) v = bits_be n (Z.shiftr v (Z.of_nat m)) ++ bits_be m v.
Proof.
  induction n as [|n IH]; [auto|]. cbn [Nat.add bits_be app]. rewrite IH, Z.shiftr_spec by lia.
  do 2 f_equal. lia.
Qed.
Lemma bits_be_ext n v w : (forall i, 0 <= i < Z.of_nat n -> Z.testbit v i = Z.testbit w i) -> bits_be n v = bits_be n w.
Proof. induction n as [|n IH]; intros H; [auto|]. cbn [bits_be]. rewrite H by lia. f_equal. apply IH. intros. apply H. lia. Qed.
Lemma bit_be_iter_ok N a : limbs N a -> bit_be_iter a = bits_be (64 * N) (val a).
Proof.
  unfold bit_be_iter. revert a. induction N as [|N IH]; intros a Ha.
  - apply limbs_inv_0 in Ha. subst. auto.
  - apply limbs_inv_S in Ha as (x & a' & -> & Hx & Ha). rewrite val_cons. cbn [rev].
    rewrite flat_map_app, IH by auto. cbn [flat_map]. rewrite app_nil_r.
    replace (64 * S N)%nat with (64 * N + 64)%nat by lia. rewrite bits_be_app. f_equal.
    + apply bits_be_ext. intros i Hi. rewrite Z.shiftr_spec by lia. rewrite testbit_high by lia. f_equal. lia.
    + apply bits_be_ext. intros i Hi. rewrite testbit_low by lia. auto.
Qed.
Lemma skip_zeros_bits n v : 0 <= v < 2 ^ Z.of_nat n -> skip_zeros (bits_be n v) = bits_be (Z.to_nat (bit_length v)) v.
Proof.
  induction n as [|n IH]; intros Hv.
  - change (2 ^ Z.of_nat 0) with 1 in Hv. assert (v = 0) by lia. subst. auto.
  - cbn [bits_be]. destruct (Z.testbit v (Z.of_nat n)) eqn:E.
    + cbn [skip_zeros]. assert (L : 2 ^ Z.of_nat n <= v).
      { destruct (Z.lt_ge_cases v (2 ^ Z.of_nat n)); [|lia].
        rewrite (testbit_big v (Z.of_nat n)) in E by lia. discriminate. }
      assert (Hl : Z.of_nat (S n) = bit_length v).
      { apply bit_length_spec; [lia|]. split; [lia|]. split; [lia|]. intros _.
        replace (Z.of_nat (S n) - 1) with (Z.of_nat n) by lia. auto. }
      rewrite <- Hl, Nat2Z.id. cbn [bits_be]. rewrite E. auto.
    + cbn [skip_zeros]. apply IH. split; [lia|]. destruct (Z.lt_ge_cases v (2 ^ Z.of_nat n)); [auto|].
      assert (F : Z.testbit v (Z.of_nat n) = true); [|congruence].
      rewrite Z.testbit_true by lia. rewrite Nat2Z.inj_succ, Z.pow_succ_r in Hv by lia.
      rewrite <- (Z.div_unique_pos v (2 ^ Z.of_nat n) 1 (v - 2 ^ Z.of_nat n)) by lia. auto.
Qed.

(** ** Parsing *)
Lemma parse_digit_ok c radix d : 2 <= radix <= 36 ->
  parse_digit c radix = Some d <-> digit_value c = Some d /\ d < radix.
Proof.
  intros Hr. unfold parse_digit, digit_value.
  destruct (Z.leb_spec 2 radix); [|lia]. destruct (Z.leb_spec radix 36); [|lia]. cbn [andb negb].
  destruct (Z.ltb_spec c 128); cbn [negb].
  - destruct ((48 <=? c) && (c <=? 57)) eqn:E1; [|destruct ((97 <=? c) && (c <=? 122)) eqn:E2;
      [|destruct ((65 <=? c) && (c <=? 90)) eqn:E3]].
    + destruct (Z.ltb_spec (c - 48) radix); split; try discriminate; try (intros F; injection F as <-; auto; fail).
      * intros [F _]; exact F.
      * intros [F G]. injection F as <-. lia.
    + replace (c - 97 + 10) with (c - 87) by lia.
      destruct (Z.ltb_spec (c - 87) radix); split; try discriminate; try (intros F; injection F as <-; auto; fail).
      * intros [F _]; exact F.
      * intros [F G]. injection F as <-. lia.
    + replace (c - 65 + 10) with (c - 55) by lia.
      destruct (Z.ltb_spec (c - 55) radix); split; try discriminate; try (intros F; injection F as <-; auto; fail).
      * intros [F _]; exact F.
      * intros [F G]. injection F as <-. lia.
    + destruct (Z.ltb_spec 36 radix); [lia|]. split; [discriminate|]. intros [F _]. discriminate.
  - split; [discriminate|]. intros [F _].
    destruct (Z.leb_spec 48 c), (Z.leb_spec c 57), (Z.leb_spec 97 c), (Z.leb_spec c 122), (Z.leb_spec 65 c), (Z.leb_spec c 90);
      cbn in F; try lia; discriminate.
Qed.
Lemma digit_value_bound c d : digit_value c = Some d -> 0 <= d < 36.
Proof.
  unfold digit_value.
  destruct (Z.leb_spec 48 c), (Z.leb_spec c 57), (Z.leb_spec 97 c), (Z.leb_spec c 122), (Z.leb_spec 65 c), (Z.leb_spec c 90);
    cbn; intros F; try discriminate; injection F as <-; lia.
Qed.
(** Least significant digit first. *)
Inductive ldenotes (radix : Z) : list Z -> Z -> Prop :=
| ldenotes_nil : ldenotes radix [] 0
| ldenotes_cons c d s v : digit_value c = Some d -> d < radix -> ldenotes radix s v ->
    ldenotes radix (c :: s) (d + radix * v).
Lemma denotes_rev radix s v : denotes radix s v <-> ldenotes radix (rev s) v.
Proof.
  split.
  - induction 1; [constructor|]. rewrite rev_app_distr. cbn [rev app]. rewrite Z.add_comm. constructor; auto.
  - rewrite <- (rev_involutive s) at 2. generalize (rev s) as l. clear s. intros l.
    induction 1; [constructor|]. cbn [rev]. rewrite Z.add_comm. econstructor; eauto.
Qed.
Lemma ldenotes_nonneg radix s v : 0 <= radix -> ldenotes radix s v -> 0 <= v.
Proof. intros Hr. induction 1; [lia|]. apply digit_value_bound in H. nia. Qed.
Lemma ldenotes_inv radix c s v : ldenotes radix (c :: s) v ->
  exists d v', digit_value c = Some d /\ d < radix /\ ldenotes radix s v' /\ v = d + radix * v'.
Proof. intros H. inversion H; subst. eauto 10. Qed.

Lemma radix_loop_ok N radix ur s : (0 < N)%nat -> 2 <= radix <= 36 -> limbs N ur -> val ur = radix ->
  forall acc order u, limbs N acc -> limbs N order -> 0 < val order ->
  radix_loop N radix ur s acc order = Some u <->
  s <> [] /\ val order * radix ^ (Z.of_nat (length s) - 1) < Bp N /\ limbs N u /\
  exists v, ldenotes radix s v /\ val u = val acc + val order * v.
Proof.
  intros HN Hr Hur Eur. assert (36 < B) by reflexivity.
  induction s as [|c s IH]; intros acc order u Hacc Hord Hpos.
  { cbn. split; [discriminate|]. intros [F _]. contradiction. }
  cbn [radix_loop].
  assert (S1 : forall d, parse_digit c radix = Some d -> exists dg, from_u64 N d = Some dg /\ limbs N dg /\ val dg = d).
  { intros d E. apply parse_digit_ok in E as [E1 E2]; auto. apply digit_value_bound in E1.
    apply from_u64_ok; lia. }
  pose proof (val_bound _ _ Hacc) as Bacc. pose proof (val_bound _ _ Hord) as Bord.
  split.
  - intros E. destruct (parse_digit c radix) as [d|] eqn:Ed; [|discriminate].
    destruct (S1 d eq_refl) as (dg & E1 & Hdg & Edg). rewrite E1 in E.
    apply parse_digit_ok in Ed as [Ed1 Ed2]; auto.
    destruct (ct_mul dg order) as [x|] eqn:Ex; [|discriminate]. apply (ct_mul_ok N) in Ex as [Hx Ex]; auto.
    destruct (ct_add acc x) as [acc'|] eqn:Ea; [|discriminate]. apply (ct_add_ok N) in Ea as [Ha Ea]; auto.
    split; [discriminate|]. destruct s as [|c' s].
    + injection E as <-. cbn [length]. change (Z.of_nat 1 - 1) with 0. rewrite Z.pow_0_r.
      split; [lia|]. split; [auto|]. exists (d + radix * 0). split; [constructor; auto; constructor|]. lia.
    + destruct (ct_mul ur order) as [order'|] eqn:Eo; [|discriminate]. apply (ct_mul_ok N) in Eo as [Ho Eo]; auto.
      apply IH in E as (_ & I1 & I2 & v & I3 & I4); auto; [|nia].
      split; [|split; [auto|]].
      * rewrite Eo, Eur in I1. cbn [length] in *.
        replace (Z.of_nat (S (S (length s))) - 1) with (Z.succ (Z.of_nat (S (length s)) - 1)) by lia.
        rewrite Z.pow_succ_r by lia. lia.
      * exists (d + radix * v). split; [constructor; auto|]. rewrite I4, Eo, Ea, Ex, Edg, Eur. ring.
  - intros (_ & I1 & I2 & v & I3 & I4). apply ldenotes_inv in I3 as (d & v' & D1 & D2 & D3 & ->).
    pose proof (digit_value_bound _ _ D1). pose proof (ldenotes_nonneg radix _ _ ltac:(lia) D3).
    pose proof (val_bound _ _ I2) as Bu.
    assert (Ed : parse_digit c radix = Some d) by (apply parse_digit_ok; auto). rewrite Ed.
    destruct (S1 d Ed) as (dg & E1 & Hdg & Edg). rewrite E1.
    assert (0 <= val order * (radix * v')) by nia.
    assert (0 <= val order * d) by nia.
    rewrite Z.mul_add_distr_l in I4.
    assert (X : exists x, limbs N x /\ val x = val dg * val order).
    { apply mul_small; auto. rewrite Edg. lia. }
    destruct X as (x & Hx & Ex). rewrite (proj2 (ct_mul_ok N dg order x Hdg Hord)) by auto.
    assert (Y : exists y, limbs N y /\ val y = val acc + val x).
    { destruct (ct_wrapping_add_ok N acc x) as (W1 & W2); auto. exists (ct_wrapping_add acc x). split; [auto|].
      rewrite W2. apply Z.mod_small. pose proof (val_bound _ _ Hx). lia. }
    destruct Y as (y & Hy & Ey). rewrite (proj2 (ct_add_ok N acc x y Hacc Hx)) by auto.
    destruct s as [|c' s].
    + f_equal. apply (val_inj N); auto. inversion D3; subst. lia.
    + assert (Zo : exists z, limbs N z /\ val z = val ur * val order).
      { apply mul_small; auto. rewrite Eur.
        cbn [length] in I1.
          replace (Z.of_nat (S (S (length s))) - 1) with (Z.succ (Z.of_nat (length s))) in I1 by lia.
          rewrite Z.pow_succ_r in I1 by lia.
          assert (0 < radix ^ Z.of_nat (length s)) by (apply Z.pow_pos_nonneg; lia). nia. }
      destruct Zo as (z & Hz & Ez). rewrite (proj2 (ct_mul_ok N ur order z Hur Hord)) by auto.
      apply IH; auto; [rewrite Ez, Eur; nia|]. split; [discriminate|]. split.
      * rewrite Ez, Eur. cbn [length] in *.
        replace (Z.of_nat (S (S (length s))) - 1) with (Z.succ (Z.of_nat (S (length s)) - 1)) in I1 by lia.
        rewrite Z.pow_succ_r in I1 by lia. lia.
      * split; [auto|]. exists v'. split; [auto|]. rewrite Ez, Eur, Ey, Ex, Edg, I4. ring.
Qed.
Lemma from_str_radix_ok N s radix u : (0 < N)%nat -> 2 <= radix <= 36 ->
  from_str_radix N s radix = Some u <->
  s <> [] /\ radix ^ (Z.of_nat (length s) - 1) < Bp N /\ limbs N u /\ denotes radix s (val u).
Proof.
  intros HN Hr. assert (36 < B) by reflexivity. unfold from_str_radix.
  destruct (from_u64_ok N 0) as (z & E0 & Hz & Ez); auto; [lia|].
  destruct (from_u64_ok N 1) as (o & E1 & Ho & Eo); auto; [lia|].
  destruct (from_u64_ok N radix) as (ur & E2 & Hur & Eur); auto; [lia|].
  rewrite E0, E1, E2, radix_loop_ok by (auto; lia). rewrite rev_length, Eo, Ez, Z.mul_1_l.
  split.
  - intros (H1 & H2 & H3 & v & H4 & H5). split; [intros ->; contradiction|]. split; [auto|]. split; [auto|].
    apply denotes_rev. replace (val u) with v by lia. auto.
  - intros (H1 & H2 & H3 & H4). apply denotes_rev in H4. split.
    + intros E. apply H1. rewrite <- (rev_involutive s), E. auto.
    + split; [auto|]. split; [auto|]. exists (val u). split; [auto|lia].
Qed.

Lemma pow16_B i k : 16 ^ (Z.of_nat (16 * i + k)) = Bp i * 16 ^ Z.of_nat k.
Proof.
  rewrite Nat2Z.inj_add, Z.pow_add_r by lia. f_equal. unfold Bp. rewrite Nat2Z.inj_mul, Z.pow_mul_r by lia. reflexivity.
Qed.
Lemma nth_val_le N a i : limbs N a -> nth i a 0 * Bp i <= val a.
Proof.
  revert a i. induction N as [|N IH]; intros a i Ha.
  - apply limbs_inv_0 in Ha. subst. destruct i; cbn; lia.
  - apply limbs_inv_S in Ha as (x & a' & -> & Hx & Ha). rewrite val_cons. pose proof B_pos.
    pose proof (val_bound _ _ Ha). destruct i; cbn [nth].
    + rewrite Bp_0. nia.
    + specialize (IH a' i Ha). rewrite Bp_S. nia.
Qed.
Lemma hex_loop_ok N s : forall num idx u, limbs N num -> val num < 16 ^ Z.of_nat idx ->
  hex_loop s num idx = Some u <->
  s <> [] /\ (idx + length s <= 16 * N)%nat /\ limbs N u /\
  exists v, ldenotes 16 s v /\ val u = val num + 16 ^ Z.of_nat idx * v.
Proof.
  assert (HB : B = 16 ^ 16) by reflexivity.
  induction s as [|c s IH]; intros num idx u Hn Hi.
  { cbn. split; [discriminate|]. intros [F _]. contradiction. }
  cbn [hex_loop]. rewrite (limbs_len _ _ Hn).
  pose proof (Nat.div_mod idx 16 ltac:(lia)) as Ei. pose proof (Nat.mod_upper_bound idx 16 ltac:(lia)) as Hk.
  set (i := (idx / 16)%nat) in *. set (k := (idx mod 16)%nat) in *. clearbody i k.
  assert (Epow : 16 ^ Z.of_nat idx = Bp i * 16 ^ Z.of_nat k) by (rewrite Ei; apply pow16_B).
  assert (Hp : 0 < 16 ^ Z.of_nat k) by (apply Z.pow_pos_nonneg; lia).
  assert (S1 : forall d, 0 <= d < 16 -> (i < N)%nat ->
    let num' := upd num i (Z.lor (nth i num 0) (u64 (Z.shiftl d (Z.of_nat (k * 4))))) in
    limbs N num' /\ val num' = val num + 16 ^ Z.of_nat idx * d /\ val num' < 16 ^ Z.of_nat (S idx)).
  { intros d Hd Hi'.
    assert (P1 : 2 ^ Z.of_nat (k * 4) = 16 ^ Z.of_nat k).
    { change 16 with (2 ^ 4). rewrite <- Z.pow_mul_r by lia. f_equal. lia. }
    assert (P2 : 16 ^ Z.of_nat k * 16 <= B).
    { rewrite Z.mul_comm, <- Z.pow_succ_r, HB by lia. apply Z.pow_le_mono_r; lia. }
    pose proof (limbs_nth _ _ i Hn) as Hnth.
    assert (P3 : nth i num 0 < 16 ^ Z.of_nat k).
    { pose proof (nth_val_le N num i Hn). pose proof (Bp_pos i). nia. }
    rewrite Z.shiftl_mul_pow2 by lia. rewrite P1, u64_small by nia.
    rewrite Z.lor_comm, (Z.mul_comm d), <- P1, lor_disjoint by (rewrite ?P1; lia). rewrite P1.
    intros num'. assert (V : val num' = val num + 16 ^ Z.of_nat idx * d).
    { unfold num'. rewrite upd_val by (rewrite (limbs_len _ _ Hn); lia). rewrite Epow. ring. }
    split; [apply upd_limbs; auto; nia|]. split; [auto|].
    rewrite V, Nat2Z.inj_succ, Z.pow_succ_r by lia.
    assert (0 < 16 ^ Z.of_nat idx) by (apply Z.pow_pos_nonneg; lia). nia. }
  split.
  - intros E. destruct (parse_digit c 16) as [d|] eqn:Ed; [|discriminate].
    apply parse_digit_ok in Ed as [Ed1 Ed2]; [|lia]. pose proof (digit_value_bound _ _ Ed1).
    destruct (Nat.leb_spec N i) as [|Hi']; [discriminate|].
    destruct (S1 d ltac:(lia) Hi') as (T1 & T2 & T3). split; [discriminate|].
    destruct s as [|c' s].
    + injection E as <-. cbn [length]. split; [lia|]. split; [auto|]. exists (d + 16 * 0).
      split; [constructor; auto; constructor|]. rewrite T2. lia.
    + apply IH in E as (_ & I1 & I2 & v & I3 & I4); auto. cbn [length] in *. split; [lia|]. split; [auto|].
      exists (d + 16 * v). split; [constructor; auto|]. rewrite I4, T2, Nat2Z.inj_succ, Z.pow_succ_r by lia. ring.
  - intros (_ & I1 & I2 & v & I3 & I4). apply ldenotes_inv in I3 as (d & v' & D1 & D2 & D3 & ->).
    pose proof (digit_value_bound _ _ D1).
    rewrite (proj2 (parse_digit_ok c 16 d ltac:(lia))) by auto. cbn [length] in I1.
    destruct (Nat.leb_spec N i) as [|Hi']; [lia|].
    destruct (S1 d ltac:(lia) Hi') as (T1 & T2 & T3).
    destruct s as [|c' s].
    + f_equal. apply (val_inj N); auto. inversion D3; subst. rewrite T2, I4. lia.
    + apply IH; auto. split; [discriminate|]. cbn [length] in *. split; [lia|]. split; [auto|].
      exists v'. split; [auto|]. rewrite I4, T2, Nat2Z.inj_succ, Z.pow_succ_r by lia. ring.
Qed.
Lemma from_str_hex_ok N s u :
  from_str_hex N s = Some u <->
  s <> [] /\ (length s <= 16 * N)%nat /\ limbs N u /\ denotes 16 s (val u).
Proof.
  unfold from_str_hex. rewrite (hex_loop_ok N) by (rewrite ?val_ZERO; auto using limbs_ZERO; lia).
  rewrite rev_length, val_ZERO. split.
  - intros (H1 & H2 & H3 & v & H4 & H5). split; [intros ->; contradiction|]. split; [auto|]. split; [auto|].
    apply denotes_rev. change (16 ^ Z.of_nat 0) with 1 in H5. replace (val u) with v by lia. auto.
  - intros (H1 & H2 & H3 & H4). apply denotes_rev in H4. split.
    + intros E. apply H1. rewrite <- (rev_involutive s), E. auto.
    + split; [auto|]. split; [auto|]. exists (val u). split; [auto|]. change (16 ^ Z.of_nat 0) with 1. lia.
Qed.

(** ** Remainder *)
Definition wval N lo hi := val lo + Bp N * val hi.
Lemma bit_length_pos v : 0 < v -> 0 < bit_length v.
Proof. intros. unfold bit_length. destruct (Z.eqb_spec v 0); [lia|]. pose proof (Z.log2_nonneg v). lia. Qed.
Lemma wide_num_bits_ok N lo hi : limbs N lo -> limbs N hi -> wide_num_bits lo hi = bit_length (wval N lo hi).
Proof.
  intros Hl Hh. unfold wide_num_bits, wval. rewrite !(ct_num_bits_ok N) by auto. rewrite (limbs_len _ _ Hl).
  pose proof (val_bound _ _ Hl). pose proof (val_bound _ _ Hh).
  destruct (Z.eq_dec (val hi) 0) as [E|E].
  - rewrite E. change (bit_length 0) with 0. cbn [Z.eqb]. f_equal. lia.
  - pose proof (bit_length_pos (val hi) ltac:(lia)). destruct (Z.eqb_spec (bit_length (val hi)) 0); [lia|].
    pose proof (proj2 (bit_length_spec (val hi) _ ltac:(lia)) eq_refl) as (B1 & B2 & B3).
    apply bit_length_spec; [nia|]. split; [lia|]. rewrite Z.pow_add_r, <- Bp_pow2 by lia. split; [nia|]. intros _.
    replace (bit_length (val hi) + 64 * Z.of_nat N - 1) with ((bit_length (val hi) - 1) + 64 * Z.of_nat N) by lia.
    rewrite Z.pow_add_r, <- Bp_pow2 by lia. nia.
Qed.
Lemma wide_get_bit_ok N lo hi i : limbs N lo -> limbs N hi -> 0 <= i ->
  wide_get_bit lo hi i = Z.testbit (wval N lo hi) i.
Proof.
  intros Hl Hh Hi. unfold wide_get_bit, wval. rewrite (limbs_len _ _ Hl). pose proof (val_bound _ _ Hl) as Bl.
  rewrite Bp_pow2 in *. set (n := 64 * Z.of_nat N) in *.
  destruct (Z.leb_spec n i).
  - rewrite (ct_get_bit_ok N) by (auto; lia). replace i with ((i - n) + n) at 2 by lia.
    rewrite <- Z.div_pow2_bits by lia. f_equal.
    rewrite (Z.mul_comm (2 ^ n)), Z_div_plus_full, Z.div_small by lia. lia.
  - rewrite (ct_get_bit_ok N) by auto. rewrite <- (Z.mod_pow2_bits_low (val lo + _) n i) by lia.
    rewrite (Z.mul_comm (2 ^ n)), Z_mod_plus_full, Z.mod_small by lia. auto.
Qed.
Lemma or_low_ok N a b : limbs N a -> (0 < N)%nat -> val a mod 2 = 0 -> 
  limbs N (or_low a (Z.b2z b)) /\ val (or_low a (Z.b2z b)) = val a + Z.b2z b.
Proof.
  intros Ha HN Hm. destruct N as [|N]; [lia|]. apply limbs_inv_S in Ha as (x & a' & -> & Hx & Ha).
  rewrite val_mod2 in Hm. cbn [nth] in Hm. cbn [or_low].
  assert (E : x = 2 ^ 1 * (x / 2)) by (pose proof (Z.div_mod x 2); lia).
  assert (Hb : 0 <= Z.b2z b <= 1) by (destruct b; cbn; lia).
  assert (L : Z.lor x (Z.b2z b) = x + Z.b2z b).
  { rewrite E at 1. rewrite lor_disjoint by lia. rewrite <- E. auto. }
  rewrite L, !val_cons. split; [|lia]. apply limbs_cons; [|auto].
  assert (x <> B - 1). { intros ->. discriminate Hm. }
  lia.
Qed.
Lemma rem_step_ok N lo hi m r i : limbs N lo -> limbs N hi -> limbs N m -> limbs N r -> (0 < N)%nat -> 0 <= i ->
  val r < val m ->
  limbs N (rem_step lo hi m r i) /\
  val (rem_step lo hi m r i) = (2 * val r + Z.b2z (Z.testbit (wval N lo hi) i)) mod val m.
Proof.
  intros Hlo Hhi Hm Hr HN Hi Hlt. unfold rem_step.
  destruct (ct_checked_mul2_ok N r Hr) as [H1 H2]. destruct (ct_checked_mul2 r) as [r2 c]. cbn [fst snd] in *.
  rewrite (wide_get_bit_ok N) by auto. set (b := Z.testbit _ _). clearbody b.
  pose proof (val_bound _ _ H1). pose proof (val_bound _ _ Hr). pose proof (val_bound _ _ Hm).
  assert (Hb : 0 <= Z.b2z b <= 1) by (destruct b; cbn; lia).
  assert (Ev : val r2 mod 2 = 0).
  { assert (Bp N = 2 * (2 ^ 63 * Bp (N - 1))).
    { replace N with (S (N - 1)) at 1 by lia. rewrite Bp_S. change B with (2 * 2 ^ 63). lia. }
    replace (val r2) with ((val r - 2 ^ 63 * Bp (N - 1) * Z.b2z c) * 2) by lia. apply Z_mod_mult. }
  destruct (or_low_ok N r2 b H1 HN Ev) as [G3 G4]. set (r3 := or_low r2 (Z.b2z b)) in *. clearbody r3.
  rewrite (ct_ge_ok N) by auto.
  destruct (Z.leb_spec (val m) (val r3)) as [L|L]; cbn [orb].
  - destruct (ct_checked_sub_ok N r3 m) as [S1 S2]; auto. split; [auto|].
    pose proof (val_bound _ _ S1). pose proof (val_bound _ _ G3).
    destruct c; cbn [Z.b2z] in H2.
    + lia.
    + apply (Z.mod_unique_pos _ _ 1); [|]; destruct (snd (ct_checked_sub r3 m)); cbn [Z.b2z] in S2; lia.
  - destruct c; cbn [Z.b2z] in H2.
    + destruct (ct_checked_sub_ok N r3 m) as [S1 S2]; auto. split; [auto|].
      pose proof (val_bound _ _ S1). pose proof (val_bound _ _ G3).
      apply (Z.mod_unique_pos _ _ 1); [|]; destruct (snd (ct_checked_sub r3 m)); cbn [Z.b2z] in S2; lia.
    + split; [auto|]. apply (Z.mod_unique_pos _ _ 0); [|]; pose proof (val_bound _ _ G3); lia.
Qed.
Lemma rem_loop_ok N lo hi m : limbs N lo -> limbs N hi -> limbs N m -> (0 < N)%nat -> 0 < val m -> forall n r,
  limbs N r -> val r = (wval N lo hi / 2 ^ Z.of_nat n) mod val m ->
  limbs N (rem_loop lo hi m r n) /\ val (rem_loop lo hi m r n) = wval N lo hi mod val m.
Proof.
  intros Hlo Hhi Hm HN Hpos. induction n as [|n IH]; intros r Hr Er; cbn [rem_loop].
  - split; [auto|]. rewrite Er. change (2 ^ Z.of_nat 0) with 1. rewrite Z.div_1_r. auto.
  - destruct (rem_step_ok N lo hi m r (Z.of_nat n)) as [H1 H2]; auto; [lia| |].
    { rewrite Er. apply Z.mod_pos_bound. auto. }
    apply IH; [auto|]. rewrite H2, Er. set (w := wval N lo hi).
    assert (E : w / 2 ^ Z.of_nat n = 2 * (w / 2 ^ Z.of_nat (S n)) + Z.b2z (Z.testbit w (Z.of_nat n))).
    { rewrite Z.testbit_spec' by lia. rewrite Nat2Z.inj_succ, Z.pow_succ_r, (Z.mul_comm 2 (2 ^ _)) by lia.
      rewrite <- Z.div_div by (try apply Z.pow_pos_nonneg; try apply Z.pow_nonzero; lia).
      apply Z.div_mod. lia. }
    rewrite E. rewrite <- Z.add_mod_idemp_l, Z.mul_mod_idemp_r by lia.
    rewrite Z.add_mod_idemp_l by lia. auto.
Qed.
Lemma ct_rem_ok N lo hi m : (0 < N)%nat -> limbs N lo -> limbs N hi -> limbs N m ->
  0 < wval N lo hi -> 0 < val m ->
  exists r, ct_rem lo hi m = Some r /\ limbs N r /\ val r = wval N lo hi mod val m.
Proof.
  intros HN Hlo Hhi Hm Hw Hpos. unfold ct_rem. rewrite (ct_is_zero_ok N) by auto.
  destruct (Z.eqb_spec (val m) 0); [lia|]. rewrite (wide_num_bits_ok N) by auto.
  pose proof (bit_length_pos _ Hw). destruct (Z.eqb_spec (bit_length (wval N lo hi)) 0); [lia|].
  eexists. split; [reflexivity|]. rewrite (limbs_len _ _ Hm). apply rem_loop_ok; auto using limbs_ZERO.
  rewrite val_ZERO, Z2Nat.id by lia.
  pose proof (proj2 (bit_length_spec (wval N lo hi) _ ltac:(lia)) eq_refl) as (B1 & B2 & B3).
  rewrite Z.div_small by lia. auto.
Qed.

(** ** Bitwise operations *)
Lemma limb_of_bits x : 0 <= x -> (forall i, 64 <= i -> Z.testbit x i = false) -> limb x.
Proof.
  intros H0 H. split; [auto|]. destruct (Z.lt_ge_cases x B) as [|L]; [auto|].
  assert (64 <= Z.log2 x) by (change 64 with (Z.log2 B); apply Z.log2_le_mono; auto).
  specialize (H _ H1). rewrite Z.bit_log2 in H; [discriminate|]. pose proof B_pos. lia.
Qed.
Section Bitwise.
  Variable op : Z -> Z -> Z.
  Variable bop : bool -> bool -> bool.
  Hypothesis op_spec : forall a b i, 0 <= i -> Z.testbit (op a b) i = bop (Z.testbit a i) (Z.testbit b i).
  Hypothesis op_nonneg : forall a b, 0 <= a -> 0 <= b -> 0 <= op a b.
  Hypothesis bop_ff : bop false false = false.
  Lemma op_limb x y : limb x -> limb y -> limb (op x y).
  Proof.
    intros Hx Hy. apply limb_of_bits; [apply op_nonneg; lia|]. intros i Hi. rewrite op_spec by lia.
    rewrite <- B_eq in *. rewrite !(testbit_big _ 64) by lia. auto.
  Qed.
  Lemma map2_ok N a b : limbs N a -> limbs N b ->
    limbs N (map2 op a b) /\ val (map2 op a b) = op (val a) (val b).
  Proof.
    revert a b. induction N as [|N IH]; intros a b Ha Hb.
    - apply limbs_inv_0 in Ha, Hb. subst. split; [apply limbs_nil|]. cbn [map2 val].
      apply Z.bits_inj'. intros i Hi. rewrite op_spec, Z.bits_0 by auto. auto.
    - apply limbs_inv_S in Ha as (x & a' & -> & Hx & Ha), Hb as (y & b' & -> & Hy & Hb).
      destruct (IH a' b') as [H1 H2]; auto. cbn [map2]. split; [apply limbs_cons; auto using op_limb|].
      rewrite !val_cons, H2. apply Z.bits_inj'. intros i Hi. rewrite op_spec by auto.
      destruct (Z.lt_ge_cases i 64).
      + rewrite !testbit_low by (auto using op_limb; lia). apply op_spec. auto.
      + rewrite !testbit_high by (auto using op_limb; lia). apply op_spec. lia.
  Qed.
End Bitwise.
Lemma bitnot_ok N a : limbs N a -> limbs N (bitnot a) /\ val (bitnot a) = Bp N - 1 - val a.
Proof.
  unfold bitnot. revert a. induction N as [|N IH]; intros a Ha.
  - apply limbs_inv_0 in Ha. subst. split; [apply limbs_nil|]. rewrite Bp_0. cbn [map val]. lia.
  - apply limbs_inv_S in Ha as (x & a' & -> & Hx & Ha). destruct (IH a') as [H1 H2]; auto.
    cbn [map]. split; [apply limbs_cons; auto; lia|]. rewrite !val_cons, H2, Bp_S. ring.
Qed.

Lemma limbs_exist N v : 0 <= v < Bp N -> exists u, limbs N u /\ val u = v.
Proof.
  revert v. induction N as [|N IH]; intros v Hv.
  - rewrite Bp_0 in Hv. exists []. split; [apply limbs_nil|]. cbn [val]. lia.
  - rewrite Bp_S in Hv. pose proof B_pos. destruct (IH (v / B)) as (u & Hu & Eu).
    + split; [apply Z.div_pos; lia|]. apply Z.div_lt_upper_bound; lia.
    + exists (v mod B :: u). split; [apply limbs_cons; auto; apply Z.mod_pos_bound; auto|].
      rewrite val_cons, Eu. pose proof (Z.div_mod v B). lia.
Qed.
