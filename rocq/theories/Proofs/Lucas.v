(** Primality and primitive roots by Lucas' criterion, with an evaluator that keeps
    kernel evaluation cheap (binary Montgomery reduction, product trees). *)
From Coq Require Import ZArith List Bool Lia Znumtheory Zpow_facts.
Import ListNotations.
Open Scope Z_scope.

Lemma nodup_map_in {A B} (f : A -> B) l : (forall x y, In x l -> In y l -> f x = f y -> x = y) -> NoDup l -> NoDup (map f l).
Proof.
  intros H. induction 1 as [|x l Hx Hl IH]; cbn; constructor.
  - intros Hi. apply in_map_iff in Hi as (y & E & Hy). apply Hx. rewrite (H x y); cbn; auto.
  - apply IH. intros. apply H; cbn; auto.
Qed.
(** ** Criterion *)
Lemma bezout_pos e m u v D : 0 < e -> 0 < m -> u * e + v * m = D ->
  exists u' v', 0 <= u' /\ 0 <= v' /\ e * u' = D + m * v'.
Proof.
  intros He Hm H. exists (u + (Z.abs u + Z.abs v) * m), ((Z.abs u + Z.abs v) * e - v).
  assert (K : forall a b, 0 <= a -> 0 < b -> a <= a * b) by (intros; nia).
  pose proof (K (Z.abs u + Z.abs v) e ltac:(lia) He). pose proof (K (Z.abs u + Z.abs v) m ltac:(lia) Hm).
  split; [lia|]. split; [lia|]. rewrite <- H. ring.
Qed.
Section Order.
  Variables (n g m : Z) (qs : list Z).
  Hypothesis Hn : 1 < n.
  Hypothesis Hm : n = m + 1.
  Hypothesis Hqs : forall q, prime q -> (q | m) -> In q qs.
  Hypothesis Hone : g ^ m mod n = 1.
  Hypothesis Hord : forall q, In q qs -> exists c, m = q * c /\ g ^ c mod n <> 1.

  Lemma pow_mod_mul a b : 0 <= a -> 0 <= b -> g ^ (a + b) mod n = (g ^ a mod n) * (g ^ b mod n) mod n.
  Proof. intros. rewrite Z.pow_add_r, Z.mul_mod by lia. auto. Qed.
  Lemma pow_one_mul a k : 0 <= a -> 0 <= k -> g ^ a mod n = 1 -> g ^ (a * k) mod n = 1.
  Proof.
    intros Ha Hk H. rewrite Z.pow_mul_r by lia. rewrite Zpower_mod, H by lia. rewrite Z.pow_1_l by lia.
    apply Z.mod_small. lia.
  Qed.
  Lemma has_prime_divisor w : 1 < w -> exists q, prime q /\ (q | w).
  Proof.
    intros Hw. assert (H : forall k, (0 < k)%nat -> forall w, 1 < w < Z.of_nat k -> exists q, prime q /\ (q | w)).
    { induction k as [|k IH]; intros Hk v Hv; [lia|]. destruct (prime_dec v) as [P|P]; [exists v; split; [auto|apply Z.divide_refl]|].
      destruct (not_prime_divide v ltac:(lia) P) as (d & Hd & D). destruct (IH ltac:(lia) d ltac:(lia)) as (q & Q1 & Q2).
      exists q. split; [auto|]. apply (Z.divide_trans _ d); auto. }
    apply (H (Z.to_nat w + 1)%nat); lia.
  Qed.
  Lemma order e : 0 < e -> g ^ e mod n = 1 -> m <= e.
  Proof.
    intros He E. set (D := Z.gcd e m). assert (HD : 0 < D).
    { pose proof (Z.gcd_nonneg e m). assert (D <> 0); [|unfold D in *; lia]. intros Z0. apply Z.gcd_eq_0_l in Z0. lia. }
    destruct (Z.gcd_divide_l e m) as [i Hi]. destruct (Z.gcd_divide_r e m) as [w Hw]. fold D in Hi, Hw.
    assert (HgD : g ^ D mod n = 1).
    { destruct (Z.gcd_bezout e m D eq_refl) as (u & v & Huv).
      destruct (bezout_pos e m u v D ltac:(lia) ltac:(lia) Huv) as (u' & v' & U1 & U2 & U3).
      pose proof (pow_one_mul e u' ltac:(lia) U1 E) as P1. rewrite U3 in P1.
      rewrite pow_mod_mul in P1 by (try apply Z.mul_nonneg_nonneg; lia). rewrite (pow_one_mul m v') in P1 by (auto; lia).
      rewrite Z.mul_1_r, Z.mod_mod in P1 by lia. auto. }
    destruct (Z.lt_ge_cases 1 w) as [Hlt|Hge].
    - exfalso. destruct (has_prime_divisor w Hlt) as (q & Q1 & [w' Q2]). pose proof (prime_ge_2 _ Q1).
      destruct (Hord q) as (c & C1 & C2); [apply Hqs; auto; exists (w' * D); rewrite Hw, Q2; ring|].
      apply C2. assert (c = D * w') as -> by (apply (Z.mul_reg_l _ _ q); [lia|]; rewrite <- C1, Hw, Q2; ring).
      apply pow_one_mul; [lia| |auto]. clear - Hlt Q2 H. nia.
    - assert (w = 1) by nia. subst w. rewrite Hw, Z.mul_1_l. apply Z.divide_pos_le; [auto|]. exists i. auto.
  Qed.
  Lemma pow_cancel i j : 0 <= i -> i <= j -> j < m -> g ^ i mod n = g ^ j mod n -> i = j.
  Proof.
    intros Hi Hij Hj E. destruct (Z.eq_dec i j) as [|Hne]; [auto|]. exfalso.
    assert (Hm0 : 0 <= m) by lia. assert (Hji : 0 <= j - i) by lia. assert (Hn0 : n <> 0) by lia.
    assert (F : g ^ (j - i) mod n = 1).
    { rewrite <- Hone. replace m with (i + (m - i)) by lia. replace (j - i) with ((j - i) + 0) by lia.
      pose proof (pow_mod_mul j (m - i) ltac:(lia) ltac:(lia)) as P1. 
      pose proof (pow_mod_mul i (m - i) ltac:(lia) ltac:(lia)) as P2. rewrite <- E in P1. rewrite <- P2 in P1.
      replace (j + (m - i)) with (m + (j - i)) in P1 by lia. rewrite (pow_mod_mul m (j - i) Hm0 Hji), Hone, Z.mul_1_l, (Z.mod_mod _ _ Hn0) in P1.
      rewrite Z.add_0_r. auto. }
    apply order in F; lia.
  Qed.
  Lemma powers_cover x : 1 <= x < n -> exists e, 0 <= e < m /\ g ^ e mod n = x.
  Proof.
    intros Hx. set (L := map (fun i => g ^ Z.of_nat i mod n) (seq 0 (Z.to_nat m))).
    set (L' := map Z.of_nat (seq 1 (Z.to_nat m))).
    assert (I : incl L' L).
    { apply NoDup_length_incl.
      - apply nodup_map_in; [|apply seq_NoDup]. intros i j Hi Hj E. apply in_seq in Hi, Hj.
        destruct (Z.le_ge_cases (Z.of_nat i) (Z.of_nat j)).
        + apply pow_cancel in E; lia.
        + symmetry in E. apply pow_cancel in E; lia.
      - unfold L, L'. rewrite !map_length, !seq_length. auto.
      - intros y Hy. apply in_map_iff in Hy as (i & <- & Hi). apply in_seq in Hi. apply in_map_iff.
        pose proof (Z.mod_pos_bound (g ^ Z.of_nat i) n ltac:(lia)) as Hb.
        assert (g ^ Z.of_nat i mod n <> 0).
        { intros E0. pose proof (pow_mod_mul (Z.of_nat i) (m - Z.of_nat i) ltac:(lia) ltac:(lia)) as P.
          replace (Z.of_nat i + (m - Z.of_nat i)) with m in P by lia. rewrite E0, Hone, Z.mul_0_l, Z.mod_0_l in P; lia. }
        exists (Z.to_nat (g ^ Z.of_nat i mod n)). split; [lia|]. apply in_seq. lia. }
    destruct (proj1 (in_map_iff _ _ _) (I x ltac:(apply in_map_iff; exists (Z.to_nat x); split; [lia|apply in_seq; lia]))) as (i & Hi1 & Hi2).
    apply in_seq in Hi2. exists (Z.of_nat i). split; [lia|auto].
  Qed.
  Lemma lucas_prime : prime n.
  Proof.
    constructor; [auto|]. intros x Hx. destruct (powers_cover x ltac:(lia)) as (e & He & Ee).
    apply bezout_rel_prime.
    set (y := g ^ (m - e) mod n).
    assert (Exy : (x * y) mod n = 1).
    { unfold y. rewrite <- Ee, <- pow_mod_mul by lia. replace (e + (m - e)) with m by lia. auto. }
    pose proof (Z.div_mod (x * y) n ltac:(lia)). apply Bezout_intro with y (- (x * y / n)). lia.
  Qed.
End Order.

(** ** Evaluation *)
Inductive tree := Leaf (q : positive) (e : nat) | Node (l r : tree).
Fixpoint tprod (t : tree) : positive :=
  match t with Leaf q e => Pos.pow q (Pos.of_nat e) | Node l r => tprod l * tprod r end.
Fixpoint tprimes (t : tree) : list Z :=
  match t with Leaf q _ => [Z.pos q] | Node l r => tprimes l ++ tprimes r end.

Section Eval.
  Variables (n : Z) (K : nat).
  Fixpoint redc (k : nat) (t : Z) : Z :=
    match k with O => t | S k' => redc k' (Z.div2 (if Z.odd t then t + n else t)) end.
  Definition msq (x : Z) := redc K (Z.square x).
  Definition mmul (x y : Z) := redc K (x * y).
  Fixpoint mpow (x : Z) (e : positive) : Z :=
    match e with
    | xH => x
    | xO e' => msq (mpow x e')
    | xI e' => mmul x (msq (mpow x e'))
    end.
  Definition is_one (x : Z) : bool := (x - 2 ^ Z.of_nat K) mod n =? 0.
  Fixpoint check (t : tree) (x : Z) : bool :=
    match t with
    | Leaf q e =>
        let y := match e with S (S e') => mpow x (Pos.pow q (Pos.of_nat (S e'))) | _ => x end in
        negb (is_one y) && is_one (mpow y q) && negb (Nat.eqb e 0)
    | Node l r => check l (mpow x (tprod r)) && check r (mpow x (tprod l))
    end.
  Definition check_root (g : Z) (t : tree) : bool :=
    (1 <? n) && Z.odd n && (n =? Z.pos (tprod t) + 1) && check t ((g * 2 ^ Z.of_nat K) mod n).

  Hypothesis Hn : 1 < n.
  Hypothesis Hodd : Z.odd n = true.
  Notation W := (2 ^ Z.of_nat K).
  Lemma redc_ok k : forall t, exists j, 2 ^ Z.of_nat k * redc k t = t + j * n.
  Proof.
    induction k as [|k IH]; intros t; [exists 0; cbn [redc]; change (2 ^ Z.of_nat 0) with 1; lia|]. cbn [redc]. rewrite Nat2Z.inj_succ, Z.pow_succ_r by lia.
    destruct (Z.odd t) eqn:E.
    - destruct (IH (Z.div2 (t + n))) as [j Hj]. exists (2 * j + 1). rewrite <- Z.mul_assoc, Hj.
      assert (Ev : Z.odd (t + n) = false) by (rewrite Z.odd_add, E, Hodd; auto).
      pose proof (Z.div2_odd (t + n)) as D. rewrite Ev in D. cbn [Z.b2z] in D. lia.
    - destruct (IH (Z.div2 t)) as [j Hj]. exists (2 * j). rewrite <- Z.mul_assoc, Hj.
      pose proof (Z.div2_odd t) as D. rewrite E in D. cbn [Z.b2z] in D. lia.
  Qed.
  Lemma cop : rel_prime n W.
  Proof.
    apply rel_prime_Zpower_r; [lia|]. apply rel_prime_sym, prime_rel_prime; [apply prime_2|].
    intros [k Hk]. rewrite Hk, Z.mul_comm, Z.odd_mul in Hodd. discriminate.
  Qed.
  Lemma cancel x : (n | W * x) -> (n | x).
  Proof. intros H. apply (Gauss _ _ _ H cop). Qed.
  Definition rep (x a : Z) := (n | x - a * W).
  Lemma mmul_ok x y a b : rep x a -> rep y b -> rep (mmul x y) (a * b).
  Proof.
    intros [i Hi] [j Hj]. apply cancel. unfold mmul. destruct (redc_ok K (x * y)) as [k Hk].
    exists (i * y + a * W * j + k). replace (W * (redc K (x * y) - a * b * W)) with (W * redc K (x * y) - (a * W) * (b * W)) by ring.
    rewrite Hk. replace (b * W) with (y - j * n) by lia. replace x with (a * W + i * n) by lia. ring.
  Qed.
  Lemma mpow_ok x a e : rep x a -> rep (mpow x e) (a ^ Z.pos e).
  Proof.
    intros H. induction e as [e IH|e IH|]; cbn [mpow].
    - rewrite Pos2Z.inj_xI, Z.pow_add_r, Z.pow_1_r, Z.mul_comm by lia. replace (2 * Z.pos e) with (Z.pos e + Z.pos e) by lia.
      rewrite Z.pow_add_r by lia. apply mmul_ok; [auto|]. unfold msq. rewrite Z.square_spec. apply mmul_ok; auto.
    - rewrite Pos2Z.inj_xO. replace (2 * Z.pos e) with (Z.pos e + Z.pos e) by lia.
      rewrite Z.pow_add_r by lia. unfold msq. rewrite Z.square_spec. apply mmul_ok; auto.
    - rewrite Z.pow_1_r. auto.
  Qed.
  Lemma is_one_ok x a : rep x a -> is_one x = (a mod n =? 1).
  Proof.
    intros [k Hk]. unfold is_one. apply eq_true_iff_eq. rewrite !Z.eqb_eq. split; intros H.
    - assert (D : (n | a - 1)).
      { apply cancel. apply Z.mod_divide in H as [j Hj]; [|lia]. exists (j - k). lia. }
      destruct D as [j Hj]. symmetry. apply (Z.mod_unique_pos _ _ j); lia.
    - apply Z.mod_divide; [lia|]. pose proof (Z.div_mod a n ltac:(lia)) as D. rewrite H in D.
      exists (k + a / n * W). rewrite Z.mul_add_distr_r, <- Hk. rewrite D at 1. ring.
  Qed.
  Lemma check_ok t : forall x a, rep x a -> check t x = true ->
    a ^ Z.pos (tprod t) mod n = 1 /\
    forall q, In q (tprimes t) -> exists c, Z.pos (tprod t) = q * c /\ 0 <= c /\ a ^ c mod n <> 1.
  Proof.
    induction t as [q e|l IHl r IHr]; intros x a Hr Hc; cbn [check tprod tprimes] in *.
    - apply andb_prop in Hc as [Hc He]. apply andb_prop in Hc as [Hc1 Hc2].
      destruct e as [|e]; [discriminate|]. clear He.
      set (y := match S e with S (S e') => mpow x (Pos.pow q (Pos.of_nat (S e'))) | _ => x end) in *.
      assert (Hy : rep y (a ^ (Z.pos q ^ Z.of_nat e))).
      { destruct e as [|e]; unfold y; cbv iota.
        - change (Z.of_nat 0) with 0. rewrite Z.pow_0_r, Z.pow_1_r. auto.
        - replace (Z.pos q ^ Z.of_nat (S e)) with (Z.pos (Pos.pow q (Pos.of_nat (S e)))).
          + apply mpow_ok. auto.
          + rewrite Pos2Z.inj_pow. f_equal. lia. }
      clearbody y. assert (Eq : Z.pos (q ^ Pos.of_nat (S e)) = Z.pos q * Z.pos q ^ Z.of_nat e).
      { rewrite Pos2Z.inj_pow, <- Z.pow_succ_r by lia. f_equal. lia. }
      rewrite Eq. split.
      + rewrite (is_one_ok _ ((a ^ (Z.pos q ^ Z.of_nat e)) ^ Z.pos q)) in Hc2 by (apply mpow_ok; auto).
        rewrite Z.mul_comm, Z.pow_mul_r by lia. apply Z.eqb_eq. auto.
      + intros q' [<-|[]]. exists (Z.pos q ^ Z.of_nat e). split; [auto|]. split; [lia|].
        rewrite (is_one_ok _ _ Hy) in Hc1. apply negb_true_iff, Z.eqb_neq in Hc1. auto.
    - apply andb_prop in Hc as [Hc1 Hc2].
      destruct (IHl _ (a ^ Z.pos (tprod r)) (mpow_ok _ _ _ Hr) Hc1) as [L1 L2].
      destruct (IHr _ (a ^ Z.pos (tprod l)) (mpow_ok _ _ _ Hr) Hc2) as [R1 R2].
      rewrite Pos2Z.inj_mul. split.
      + rewrite Z.pow_mul_r by lia. auto.
      + intros q Hq. apply in_app_or in Hq as [Hq|Hq].
        * destruct (L2 q Hq) as (c & C1 & C2 & C3). exists (Z.pos (tprod r) * c). split; [rewrite C1; ring|].
          split; [lia|]. rewrite Z.pow_mul_r by lia. auto.
        * destruct (R2 q Hq) as (c & C1 & C2 & C3). exists (Z.pos (tprod l) * c). split; [rewrite C1; ring|].
          split; [lia|]. rewrite Z.pow_mul_r by lia. auto.
  Qed.
End Eval.

Lemma tprimes_all t q : Forall prime (tprimes t) -> prime q -> (q | Z.pos (tprod t)) -> In q (tprimes t).
Proof.
  induction t as [r e|l IHl r IHr]; cbn [tprimes tprod]; intros H Hq D.
  - left. inversion_clear H as [|? ? Hr _]. rewrite Pos2Z.inj_pow in D.
    pose proof (prime_ge_2 _ Hq). pose proof (prime_ge_2 _ Hr).
    symmetry. apply (prime_power_prime q (Z.pos r) (Z.pos (Pos.of_nat e))); auto; lia.
  - apply Forall_app in H as [H1 H2]. rewrite Pos2Z.inj_mul in D. apply in_or_app.
    destruct (prime_mult _ Hq _ _ D); auto.
Qed.
Theorem lucas n K g t : Forall prime (tprimes t) -> check_root n K g t = true ->
  prime n /\ forall x, 1 <= x < n -> exists e, 0 <= e < n - 1 /\ g ^ e mod n = x.
Proof.
  intros Hp H. unfold check_root in H. apply andb_prop in H as [H H4]. apply andb_prop in H as [H H3]. apply andb_prop in H as [H1 H2].
  apply Z.ltb_lt in H1. apply Z.eqb_eq in H3.
  assert (Hr : rep n K ((g * 2 ^ Z.of_nat K) mod n) g).
  { exists (- (g * 2 ^ Z.of_nat K / n)). pose proof (Z.div_mod (g * 2 ^ Z.of_nat K) n). lia. }
  destruct (check_ok n K H1 H2 t _ g Hr H4) as [C1 C2].
  assert (C2' : forall q, In q (tprimes t) -> exists c, Z.pos (tprod t) = q * c /\ g ^ c mod n <> 1).
  { intros q Hq. destruct (C2 q Hq) as (c & ? & _ & ?). eauto. }
  pose proof (fun q => tprimes_all t q Hp) as Hall.
  split; [apply (lucas_prime n g (Z.pos (tprod t)) (tprimes t)); auto|].
  intros x Hx. destruct (powers_cover n g (Z.pos (tprod t)) (tprimes t) H1 H3 Hall C1 C2' x Hx) as (e & He & E).
  exists e. split; [lia|auto].
Qed.

(** ** Small primes by trial division *)
Fixpoint no_divisor (fuel : nat) (d n : Z) : bool :=
  match fuel with
  | O => false
  | S f => if n <? d * d then true else if n mod d =? 0 then false else no_divisor f (d + 1) n
  end.
Lemma no_divisor_ok fuel : forall d n, 2 <= d -> no_divisor fuel d n = true ->
  forall k, d <= k -> k * k <= n -> ~ (k | n).
Proof.
  induction fuel as [|f IH]; intros d n Hd H k Hk Hkn D; [discriminate|]. cbn [no_divisor] in H.
  destruct (Z.ltb_spec n (d * d)); [nia|]. destruct (Z.eqb_spec (n mod d) 0) as [|E]; [discriminate|].
  destruct (Z.eq_dec k d) as [->|Hne].
  - apply E. apply Z.mod_divide; [lia|auto].
  - apply (IH (d + 1) n ltac:(lia) H k); auto. lia.
Qed.
Theorem prime_trial fuel n : 1 < n -> no_divisor fuel 2 n = true -> prime n.
Proof.
  intros Hn H. destruct (prime_dec n) as [|P]; [auto|]. exfalso.
  destruct (not_prime_divide n Hn P) as (d & Hd & [k Hk]).
  pose proof (no_divisor_ok fuel 2 n ltac:(lia) H) as ND.
  destruct (Z.le_gt_cases (d * d) n).
  - apply (ND d); [lia|auto|exists k; auto].
  - apply (ND k); [nia|nia|exists d; lia].
Qed.
