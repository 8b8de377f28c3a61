(** The prime field elements of [Model/Fp.v] as a field in the sense of [Model/Curve.v]:
    the canonical representations, with the operations of the model. *)
From Coq Require Import ZArith Znumtheory Lia List Bool Ring_theory Eqdep_dec.
From Verif Require Import Model.Uint Model.Fp Model.Curve Spec.Uint_spec Spec.Fp_spec Spec.Curve_spec.
From Verif Require Import Proofs.Uint_lemmas Proofs.Fp_lemmas.
Import ListNotations.
Open Scope Z_scope.

Definition elementb (p x : list Z) : bool :=
  Nat.eqb (length x) (length p) && forallb (fun y => (0 <=? y) && (y <? 2 ^ 64)) x && (val x <? val p).
Lemma elementb_iff p x : elementb p x = true <-> element p x.
Proof.
  unfold elementb, element, limbs. rewrite !andb_true_iff, Nat.eqb_eq, Z.ltb_lt, forallb_forall, Forall_forall.
  split.
  - intros [[A C] D]. split; [split; [auto|]|auto]. intros y Hy. specialize (C y Hy).
    apply andb_true_iff in C as [C1 C2]. apply Z.leb_le in C1. apply Z.ltb_lt in C2. auto.
  - intros [[A C] D]. split; [split; [auto|]|auto]. intros y Hy. specialize (C y Hy).
    apply andb_true_iff. split; [apply Z.leb_le|apply Z.ltb_lt]; tauto.
Qed.
Definition elt (p : list Z) : Type := {x : list Z | elementb p x = true}.
Lemma elt_eq p (x y : elt p) : proj1_sig x = proj1_sig y -> x = y.
Proof.
  destruct x as [x Hx], y as [y Hy]. cbn. intros E. subst y. f_equal. apply UIP_dec, bool_dec.
Qed.
Lemma elt_ok p (x : elt p) : element p (proj1_sig x).
Proof. apply elementb_iff, (proj2_sig x). Qed.
Definition mk p x (H : element p x) : elt p := exist _ x (proj2 (elementb_iff p x) H).

Section field.
  Context (p : list Z) (Hp : limbs (length p) p) (Hodd : Z.odd (val p) = true) (Hgt : 1 < val p).
  Notation E := (elt p).
  Definition e_add (x y : E) : E := mk p _ (proj1 (add_ok p Hp Hodd Hgt _ _ (elt_ok p x) (elt_ok p y))).
  Definition e_sub (x y : E) : E := mk p _ (proj1 (sub_ok p Hp Hodd Hgt _ _ (elt_ok p x) (elt_ok p y))).
  Definition e_mul (x y : E) : E := mk p _ (proj1 (mul_ok p Hp Hodd Hgt _ _ (elt_ok p x) (elt_ok p y))).
  Definition e_neg (x : E) : E := mk p _ (proj1 (neg_ok p Hp Hodd Hgt _ (elt_ok p x))).
  Definition e_double (x : E) : E := mk p _ (proj1 (double_ok p Hp Hodd Hgt _ (elt_ok p x))).
  Definition e_square (x : E) : E := mk p _ (proj1 (mul_ok p Hp Hodd Hgt _ _ (elt_ok p x) (elt_ok p x))).
  Definition e_zero : E := mk p _ (zero_elt p Hgt).
  Definition e_one : E := mk p _ (proj1 (one_ok p Hp Hodd Hgt)).
  (** Inversion, run long enough (see [c61_inverse]). *)
  Definition e_inv (x : E) : option E :=
    match inverse p (inverse_fuel p) (proj1_sig x) with
    | Some (Some y) => match bool_dec (elementb p y) true with left H => Some (exist _ y H) | right _ => None end
    | _ => None
    end.
  Lemma map_elt (l : list E) : Forall (element p) (map (@proj1_sig _ _) l).
  Proof. induction l; cbn; constructor; auto using elt_ok. Qed.
  Definition e_sop (a b : list E) : E :=
    mk p _ (proj1 (products_ok p Hp Hodd Hgt _ _ (map_elt a) (map_elt b) _ (zero_elt p Hgt))).
  Definition fp_ops : field_ops := {|
    F := E; f0 := e_zero; f1 := e_one; fadd := e_add; fsub := e_sub; fmul := e_mul; fneg := e_neg;
    fdouble := e_double; fsquare := e_square; finv := e_inv;
    feqb := fun x y => ct_eq (proj1_sig x) (proj1_sig y); fsop := e_sop; small_extension := true |}.

  Definition num (x : E) : Z := as_Z p (proj1_sig x).
  Lemma num_inj x y : num x = num y -> x = y.
  Proof. intros H. apply elt_eq, (as_Z_inj p Hp Hodd Hgt); auto using elt_ok. Qed.
  Lemma num_bound x : 0 <= num x < val p.
  Proof. apply (into_ok p Hp Hodd Hgt), elt_ok. Qed.
  Lemma num_add x y : num (e_add x y) = (num x + num y) mod val p.
  Proof. apply (add_ok p Hp Hodd Hgt); apply elt_ok. Qed.
  Lemma num_sub x y : num (e_sub x y) = (num x - num y) mod val p.
  Proof. apply (sub_ok p Hp Hodd Hgt); apply elt_ok. Qed.
  Lemma num_mul x y : num (e_mul x y) = (num x * num y) mod val p.
  Proof. apply (mul_ok p Hp Hodd Hgt); apply elt_ok. Qed.
  Lemma num_neg x : num (e_neg x) = (- num x) mod val p.
  Proof. apply (neg_ok p Hp Hodd Hgt); apply elt_ok. Qed.
  Lemma num_double x : num (e_double x) = (2 * num x) mod val p.
  Proof. apply (double_ok p Hp Hodd Hgt); apply elt_ok. Qed.
  Lemma num_zero : num e_zero = 0.
  Proof. apply (zero_ok p Hp Hodd Hgt). Qed.
  Lemma num_one : num e_one = 1.
  Proof. apply (one_ok p Hp Hodd Hgt). Qed.
  Lemma num_sop a b : num (e_sop a b) = dot (map num a) (map num b) mod val p.
  Proof.
    unfold num at 1, e_sop, mk. cbn [proj1_sig].
    rewrite (proj2 (products_ok p Hp Hodd Hgt _ _ (map_elt a) (map_elt b) _ (zero_elt p Hgt))).
    rewrite (zero_ok p Hp Hodd Hgt), !map_map. reflexivity.
  Qed.

  Lemma fp_ring : ring_theory e_zero e_one e_add e_mul e_sub e_neg eq.
  Proof.
    constructor; intros; apply num_inj; repeat rewrite ?num_add, ?num_mul, ?num_sub, ?num_neg, ?num_zero, ?num_one.
    - rewrite Z.mod_small; [ring|apply num_bound].
    - f_equal. ring.
    - rewrite Z.add_mod_idemp_l, Z.add_mod_idemp_r by lia. f_equal. ring.
    - rewrite Z.mul_1_l, Z.mod_small; [reflexivity|apply num_bound].
    - f_equal. ring.
    - rewrite Z.mul_mod_idemp_l, Z.mul_mod_idemp_r by lia. f_equal. ring.
    - rewrite Z.mul_mod_idemp_l, <- Z.add_mod by lia. f_equal. ring.
    - rewrite Z.add_mod_idemp_r by lia. reflexivity.
    - rewrite Z.add_mod_idemp_r by lia. replace (num x + - num x) with 0 by ring. apply Z.mod_0_l. lia.
  Qed.
  Lemma fp_eqb (x y : E) : ct_eq (proj1_sig x) (proj1_sig y) = true <-> x = y.
  Proof.
    rewrite (ct_eq_iff (length p)) by apply elt_ok. split; [apply elt_eq|congruence].
  Qed.
  Lemma fp_laws : prime (val p) -> field_laws fp_ops.
  Proof.
    intros Hpr. constructor; cbn [F f0 f1 fadd fsub fmul fneg fdouble fsquare finv feqb fsop fp_ops].
    - apply fp_ring.
    - intros E. apply (f_equal num) in E. rewrite num_one, num_zero in E. discriminate.
    - intros E. apply (f_equal num) in E. rewrite num_add, num_one, num_zero in E.
      destruct (Z.eq_dec (val p) 2) as [E2|E2]; [rewrite E2 in Hodd; discriminate|].
      rewrite Z.mod_small in E; lia.
    - apply fp_eqb.
    - intros x. apply num_inj. rewrite num_double, num_add. f_equal. ring.
    - intros x. apply elt_eq. reflexivity.
    - intros x. unfold e_inv. destruct (Z.eq_dec (num x) 0) as [E|E].
      + split; [intros _; apply num_inj; rewrite num_zero; exact E|intros _].
        unfold inverse. pose proof (is_zero_iff p Hp Hodd Hgt _ (elt_ok p x)) as Hz.
        destruct (Fp.is_zero p (proj1_sig x)); [reflexivity|].
        exfalso. destruct Hz as [_ Hz]. specialize (Hz E). discriminate.
      + split; [|intros ->; exfalso; apply E, num_zero].
        destruct (inverse_ok p Hp Hodd Hgt (inverse_fuel p) (proj1_sig x) (le_n _) (elt_ok p x) E) as (r & -> & Hr & _).
        * apply rel_prime_sym, prime_rel_prime; [exact Hpr|]. intros D. apply Z.divide_pos_le in D.
          -- pose proof (num_bound x). unfold num in *. lia.
          -- pose proof (num_bound x). unfold num in *. lia.
        * destruct (bool_dec _ _) as [|N]; [discriminate|]. exfalso. apply N, elementb_iff, Hr.
    - intros x y. unfold e_inv. destruct (Z.eq_dec (num x) 0) as [E|E].
      + unfold inverse. pose proof (is_zero_iff p Hp Hodd Hgt _ (elt_ok p x)) as Hz.
        destruct (Fp.is_zero p (proj1_sig x)); [discriminate|].
        exfalso. destruct Hz as [_ Hz]. specialize (Hz E). discriminate.
      + destruct (inverse_ok p Hp Hodd Hgt (inverse_fuel p) (proj1_sig x) (le_n _) (elt_ok p x) E) as (r & -> & Hr & Hm).
        * apply rel_prime_sym, prime_rel_prime; [exact Hpr|]. intros D. apply Z.divide_pos_le in D.
          -- pose proof (num_bound x). unfold num in *. lia.
          -- pose proof (num_bound x). unfold num in *. lia.
        * destruct (bool_dec _ _) as [|N]; [|discriminate]. intros [= <-]. apply num_inj.
          rewrite num_mul, num_one. exact Hm.
    - intros a b c d. apply num_inj. rewrite num_sop, num_add, !num_mul. cbn [map dot].
      rewrite Z.add_0_r, <- Z.add_mod by lia. reflexivity.
  Qed.
End field.
