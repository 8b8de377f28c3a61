(** Fermat's little theorem, and injectivity of power maps coprime to the group order. *)
From Coq Require Import ZArith List Bool Lia Znumtheory Zpow_facts Permutation.
From Verif Require Import Proofs.Lucas.
Import ListNotations.
Open Scope Z_scope.

Definition product (l : list Z) : Z := fold_right Z.mul 1 l.
Lemma product_perm l l' : Permutation l l' -> product l = product l'.
Proof. unfold product. induction 1; cbn [fold_right]; [reflexivity|rewrite IHPermutation; reflexivity|ring|congruence]. Qed.
Lemma product_map a p l : 1 < p -> product (map (fun x => a * x mod p) l) mod p = (a ^ Z.of_nat (length l) * product l) mod p.
Proof.
  intros Hp. induction l as [|x l IH]; [reflexivity|].
  cbn [map product fold_right length]. change (fold_right Z.mul 1) with product.
  rewrite Z.mul_mod_idemp_l by lia. rewrite Z.mul_mod, IH, <- Z.mul_mod by lia. f_equal.
  rewrite Nat2Z.inj_succ, Z.pow_succ_r by lia. ring.
Qed.
Lemma product_prime p l : prime p -> (forall x, In x l -> ~ (p | x)) -> rel_prime p (product l).
Proof.
  intros Hp. induction l as [|x l IH]; intros H; cbn.
  - apply rel_prime_sym, rel_prime_1.
  - apply rel_prime_mult; [apply prime_rel_prime; [exact Hp|apply H; cbn; auto]|].
    apply IH. intros; apply H; cbn; auto.
Qed.
Lemma cancel_mod p a x y : prime p -> ~ (p | a) -> a * x mod p = a * y mod p -> x mod p = y mod p.
Proof.
  intros Hp Ha E. pose proof (prime_ge_2 _ Hp).
  assert (D : (p | a * (x - y))).
  { apply Z.mod_divide; [lia|]. rewrite Z.mul_sub_distr_l, Zminus_mod, E, Z.sub_diag. reflexivity. }
  apply Gauss in D; [|apply prime_rel_prime; assumption].
  destruct D as [k Hk]. replace x with (y + k * p) by lia. apply Z.mod_add. lia.
Qed.
Theorem fermat p a : prime p -> ~ (p | a) -> a ^ (p - 1) mod p = 1.
Proof.
  intros Hp Ha. pose proof (prime_ge_2 _ Hp) as H2. set (l := map Z.of_nat (seq 1 (Z.to_nat (p - 1)))).
  assert (Hl : forall x, In x l <-> 1 <= x < p).
  { intros x. unfold l. rewrite in_map_iff. split.
    - intros (i & <- & Hi). apply in_seq in Hi. lia.
    - intros Hx. exists (Z.to_nat x). split; [lia|]. apply in_seq. lia. }
  assert (Hn : length l = Z.to_nat (p - 1)) by (unfold l; rewrite map_length, seq_length; reflexivity).
  assert (ND : NoDup l) by (unfold l; apply nodup_map_in; [intros; lia|apply seq_NoDup]).
  assert (Hnd : forall x, In x l -> ~ (p | x)).
  { intros x Hx D. apply Hl in Hx. apply Z.divide_pos_le in D; lia. }
  assert (Perm : Permutation (map (fun x => a * x mod p) l) l).
  { apply NoDup_Permutation_bis.
    - apply nodup_map_in; [|exact ND]. intros x y Hx Hy E. apply (cancel_mod p a x y Hp Ha) in E.
      apply Hl in Hx, Hy. rewrite !Z.mod_small in E by lia. exact E.
    - rewrite map_length. reflexivity.
    - intros y Hy. apply in_map_iff in Hy as (x & <- & Hx). apply Hl.
      pose proof (Z.mod_pos_bound (a * x) p ltac:(lia)). assert (a * x mod p <> 0); [|lia].
      intros E. apply Z.mod_divide in E; [|lia]. apply prime_mult in E as [E|E]; [contradiction| |exact Hp].
      exact (Hnd x Hx E). }
  apply product_perm in Perm. apply (f_equal (fun v => v mod p)) in Perm. cbn beta in Perm.
  rewrite product_map, Hn, Z2Nat.id in Perm by lia.
  assert (E : product l * a ^ (p - 1) mod p = product l * 1 mod p) by (rewrite Z.mul_1_r, <- Perm; f_equal; ring).
  apply cancel_mod in E; [rewrite E; apply Z.mod_small; lia|exact Hp|].
  intros D. pose proof (product_prime p l Hp Hnd) as R. destruct R as [_ _ R].
  specialize (R p ltac:(apply Z.divide_refl) D). apply Z.divide_1_r_nonneg in R; lia.
Qed.
(** [d e = 1 + k (p - 1)]: raising to [d] is undone by raising to [e]. *)
Lemma power_inj p d e k x y : prime p -> 0 < d -> 0 <= e -> 0 <= k -> d * e = 1 + k * (p - 1) ->
  0 <= x < p -> 0 <= y < p -> x ^ d mod p = y ^ d mod p -> x = y.
Proof.
  intros Hp Hd He Hk E Hx Hy H. pose proof (prime_ge_2 _ Hp) as H2.
  assert (back : forall z, 0 <= z < p -> (z ^ d mod p) ^ e mod p = z).
  { intros z Hz. rewrite <- Zpower_mod by lia. rewrite <- Z.pow_mul_r, E by lia.
    destruct (Z.eq_dec z 0) as [->|Hz0].
    - rewrite Z.pow_0_l; [reflexivity|]. assert (0 <= k * (p - 1)) by (apply Z.mul_nonneg_nonneg; lia). lia.
    - assert (0 <= k * (p - 1)) by (apply Z.mul_nonneg_nonneg; lia).
      rewrite Z.pow_add_r, Z.pow_1_r by lia. rewrite (Z.mul_comm k), Z.pow_mul_r by lia.
      rewrite Z.mul_mod, (Zpower_mod (z ^ (p - 1))), fermat by (try lia; try exact Hp; intros D; apply Z.divide_pos_le in D; lia).
      rewrite Z.pow_1_l by lia. rewrite (Z.mod_small 1) by lia. rewrite Z.mul_1_r, Z.mod_mod, Z.mod_small by lia. reflexivity. }
  rewrite <- (back x Hx), <- (back y Hy), H. reflexivity.
Qed.
