(** Big-endian byte strings: bytes are [Z] in [0,256). *)
From Verif.Base Require Import Prelude.
#[global] Open Scope Z_scope.

(** The low [n] bytes of [x], most significant first. *)
Fixpoint be_bytes (n : nat) (x : Z) : list Z :=
  match n with
  | O => []
  | S n' => (x / 256 ^ Z.of_nat n') mod 256 :: be_bytes n' x
  end.
Fixpoint of_be (l : list Z) : Z :=
  match l with
  | [] => 0
  | b :: l' => b * 256 ^ Z.of_nat (length l') + of_be l'
  end.
Definition is_byte (b : Z) : Prop := 0 <= b < 256.

Lemma be_bytes_length n x : length (be_bytes n x) = n.
Proof. induction n; cbn; congruence. Qed.
Lemma be_bytes_byte n x : Forall is_byte (be_bytes n x).
Proof. induction n; cbn; constructor; auto. apply Z.mod_pos_bound. lia. Qed.
Lemma pow256_pos n : 0 < 256 ^ Z.of_nat n.
Proof. apply Z.pow_pos_nonneg; lia. Qed.
Lemma pow256_succ n : 256 ^ Z.of_nat (S n) = 256 * 256 ^ Z.of_nat n.
Proof. rewrite Nat2Z.inj_succ, Z.pow_succ_r by lia. reflexivity. Qed.

Lemma of_be_be_bytes n x : of_be (be_bytes n x) = x mod 256 ^ Z.of_nat n.
Proof.
  induction n as [|n IH].
  - cbn. rewrite Z.mod_1_r. reflexivity.
  - cbn [be_bytes of_be]. rewrite be_bytes_length, IH, pow256_succ.
    pose proof (pow256_pos n) as Hp. set (P := 256 ^ Z.of_nat n) in *.
    rewrite (Z.mul_comm 256 P), Z.rem_mul_r by lia. lia.
Qed.
Lemma of_be_range l : Forall is_byte l -> 0 <= of_be l < 256 ^ Z.of_nat (length l).
Proof.
  induction l as [|b l IH]; intros H; [cbn; lia|]. inversion H as [|? ? Hb Hl]; subst. specialize (IH Hl).
  cbn [of_be length]. rewrite pow256_succ. unfold is_byte in Hb.
  pose proof (pow256_pos (length l)). nia.
Qed.
Lemma be_bytes_of_be l : Forall is_byte l -> be_bytes (length l) (of_be l) = l.
Proof.
  assert (G : forall n x k, be_bytes n (k * 256 ^ Z.of_nat n + x) = be_bytes n x).
  { induction n as [|n IH]; intros x k; [reflexivity|]. cbn [be_bytes]. rewrite pow256_succ.
    pose proof (pow256_pos n) as Hp. f_equal.
    - replace (k * (256 * 256 ^ Z.of_nat n) + x) with (x + (k * 256) * 256 ^ Z.of_nat n) by ring.
      rewrite Z.div_add by lia. rewrite Z.mod_add by lia. reflexivity.
    - replace (k * (256 * 256 ^ Z.of_nat n) + x) with ((k * 256) * 256 ^ Z.of_nat n + x) by ring. apply IH. }
  induction l as [|b l IH]; intros H; [reflexivity|]. inversion H as [|? ? Hb Hl]; subst.
  cbn [length be_bytes of_be]. rewrite G, (IH Hl). f_equal.
  pose proof (of_be_range l Hl). pose proof (pow256_pos (length l)). unfold is_byte in Hb.
  rewrite Z.add_comm, Z.div_add by lia. rewrite Z.div_small by lia. apply Z.mod_small. lia.
Qed.
Lemma be_bytes_inj n x y :
  0 <= x < 256 ^ Z.of_nat n -> 0 <= y < 256 ^ Z.of_nat n -> be_bytes n x = be_bytes n y -> x = y.
Proof.
  intros Hx Hy E. apply (f_equal of_be) in E. rewrite !of_be_be_bytes, !Z.mod_small in E by assumption. exact E.
Qed.

(** One ABI word: the 32-byte big-endian encoding of a static value. *)
Definition word (x : Z) : list Z := be_bytes 32 x.
Lemma word_length x : length (word x) = 32%nat.
Proof. apply be_bytes_length. Qed.
Lemma word_inj x y : is_u256 x -> is_u256 y -> word x = word y -> x = y.
Proof. intros Hx Hy. apply be_bytes_inj; [exact Hx|exact Hy]. Qed.

Lemma app_eq_len {A} (l1 l2 m1 m2 : list A) :
  length l1 = length l2 -> l1 ++ m1 = l2 ++ m2 -> l1 = l2 /\ m1 = m2.
Proof.
  revert l2. induction l1 as [|a l1 IH]; intros [|b l2] Hl E; try discriminate; [auto|].
  cbn in *. inversion E; subst. destruct (IH l2 ltac:(lia) H1) as [-> ->]. auto.
Qed.
