(** Curve arithmetic over an arbitrary field of characteristic other than two. *)
From Coq Require Import ZArith Znumtheory Lia List Bool Ring_theory Ring Field.
From Verif Require Import Model.Uint Model.Fp Model.Curve Spec.Uint_spec Spec.Fp_spec Spec.Curve_spec.
From Verif Require Import Proofs.Uint_lemmas Proofs.Fp_lemmas Proofs.Fp_field Proofs.Curve_lemmas Proofs.Curve_group Proofs.Curve_mul.
Import ListNotations.

(** ** C63: the operations compute the chord-and-tangent law *)

(** The law itself: any two points of the curve have exactly one sum, again on the curve. *)
Theorem c63_law K a b (L : field_laws K) p q : on_curve K a b p -> on_curve K a b q ->
  exists r, sums K a p q r /\ on_curve K a b r /\ forall r', sums K a p q r' -> r' = r.
Proof.
  intros Hp Hq. exists (padd K a p q). split; [apply (padd_ok K L a b); assumption|].
  split; [apply (padd_on K L); assumption|]. intros r' H. apply (sums_padd K L), H.
Qed.
Print Assumptions c63_law.

(** Every pair of coordinates stands for exactly one point; conversion to affine never
    panics and gives that point, the identity in its canonical form; [==] compares points. *)
Theorem c63_representation K (L : field_laws K) :
  (forall p, exists u, jacobian_point K p u /\ (forall u', jacobian_point K p u' -> u' = u) /\
     exists q, into_affine K p = Some q /\ affine_point K q = u /\ (u = None -> q = identity K)) /\
  (forall q, jacobian_point K (from_affine K q) (affine_point K q)) /\
  (forall p q u v, jacobian_point K p u -> jacobian_point K q v -> (peq K p q = true <-> u = v)).
Proof.
  split; [|split].
  - intros p. destruct (jac_total K L p) as [u Hu]. exists u. split; [exact Hu|]. split.
    + intros u' H. eapply (jac_functional K L); eassumption.
    + apply (into_affine_ok K L), Hu.
  - apply (from_affine_ok K L).
  - intros. apply (peq_ok K L); assumption.
Qed.
Print Assumptions c63_representation.

Theorem c63_is_on_curve K a b (L : field_laws K) p :
  is_on_curve K a b p = true <-> on_curve K a b (affine_point K p).
Proof. apply (is_on_curve_ok K L). Qed.
Print Assumptions c63_is_on_curve.

Theorem c63_double K a (L : field_laws K) p u : jacobian_point K p u ->
  exists r, jacobian_point K (double_in_place K a p) r /\ sums K a u u r.
Proof. apply (double_ok K L). Qed.
Print Assumptions c63_double.

Theorem c63_add K a b (L : field_laws K) p q u v :
  jacobian_point K p u -> jacobian_point K q v -> on_curve K a b u -> on_curve K a b v ->
  (exists r, jacobian_point K (add K a p q) r /\ sums K a u v r) /\
  (exists r, jacobian_point K (sub K a p q) r /\ sums K a u (point_neg K v) r).
Proof.
  intros Hp Hq Hu Hv. split; [apply (add_ok K L a b); assumption|].
  apply (add_ok K L a b); [assumption|apply (pneg_ok K L), Hq|assumption|apply (neg_on K L), Hv].
Qed.
Print Assumptions c63_add.

Theorem c63_add_mixed K a b (L : field_laws K) p q u (v := affine_point K q) :
  jacobian_point K p u -> on_curve K a b u -> on_curve K a b v ->
  (exists r, jacobian_point K (add_affine K a p q) r /\ sums K a u v r) /\
  (exists r, jacobian_point K (sub_affine K a p q) r /\ sums K a u (point_neg K v) r).
Proof.
  intros Hp Hu Hv. split; [apply (add_affine_ok K L a b); assumption|].
  unfold sub_affine, v. rewrite <- aneg_ok.
  apply (add_affine_ok K L a b); [assumption|assumption|]. rewrite aneg_ok. apply (neg_on K L), Hv.
Qed.
Print Assumptions c63_add_mixed.

Theorem c63_add_affine K a b (L : field_laws K) p q (u := affine_point K p) (v := affine_point K q) :
  on_curve K a b u -> on_curve K a b v ->
  (exists r, jacobian_point K (aadd K a p q) r /\ sums K a u v r) /\
  (exists r, jacobian_point K (asub K a p q) r /\ sums K a u (point_neg K v) r).
Proof. intros Hu Hv. apply (c63_add_mixed K a b L); auto. apply (from_affine_ok K L). Qed.
Print Assumptions c63_add_affine.

Theorem c63_neg K a b (L : field_laws K) p u : jacobian_point K p u ->
  jacobian_point K (pneg K p) (point_neg K u) /\ sums K a u (point_neg K u) None /\
  (on_curve K a b u -> on_curve K a b (point_neg K u)) /\
  (forall q, affine_point K (aneg K q) = point_neg K (affine_point K q)).
Proof.
  intros H. split; [apply (pneg_ok K L), H|]. split.
  - destruct u as [[x y]|]; cbn; [constructor|]. apply sum_zero_l.
  - split; [apply (neg_on K L)|apply aneg_ok].
Qed.
Print Assumptions c63_neg.

(** Results do not depend on the representatives. *)
Theorem c63_representatives K a b (L : field_laws K) p p' q q' u v :
  jacobian_point K p u -> jacobian_point K q v -> on_curve K a b u -> on_curve K a b v ->
  peq K p p' = true -> peq K q q' = true ->
  peq K (add K a p q) (add K a p' q') = true /\ peq K (sub K a p q) (sub K a p' q') = true /\
  peq K (double_in_place K a p) (double_in_place K a p') = true /\
  peq K (pneg K p) (pneg K p') = true /\ into_affine K p = into_affine K p'.
Proof.
  intros Hp Hq Hu Hv Ep Eq.
  destruct (jac_total K L p') as [u' Hp']. destruct (jac_total K L q') as [v' Hq'].
  apply (peq_ok K L _ _ _ _ Hp Hp') in Ep. apply (peq_ok K L _ _ _ _ Hq Hq') in Eq. subst u' v'.
  destruct (c63_add K a b L _ _ _ _ Hp Hq Hu Hv) as [(r & R1 & R2) (s & S1 & S2)].
  destruct (c63_add K a b L _ _ _ _ Hp' Hq' Hu Hv) as [(r' & R1' & R2') (s' & S1' & S2')].
  destruct (double_ok K L a _ _ Hp) as (d & D1 & D2). destruct (double_ok K L a _ _ Hp') as (d' & D1' & D2').
  split; [apply (peq_ok K L _ _ _ _ R1 R1'); eapply (sums_functional K L); eassumption|].
  split; [apply (peq_ok K L _ _ _ _ S1 S1'); eapply (sums_functional K L); eassumption|].
  split; [apply (peq_ok K L _ _ _ _ D1 D1'); eapply (sums_functional K L); eassumption|].
  split; [apply (peq_ok K L _ _ _ _ (pneg_ok K L _ _ Hp) (pneg_ok K L _ _ Hp')); reflexivity|].
  destruct (into_affine_ok K L _ _ Hp) as (w & -> & W1 & W2).
  destruct (into_affine_ok K L _ _ Hp') as (w' & -> & W1' & W2'). f_equal.
  destruct u as [[x y]|]; [|rewrite W2, W2'; reflexivity].
  destruct w as [x1 y1 [|]], w' as [x2 y2 [|]]; cbn in *; congruence.
Qed.
Print Assumptions c63_representatives.

(** The prime fields of [Model/Fp.v] are such fields. *)
Theorem c63_prime_fields p (Hp : limbs (length p) p) (Hodd : Z.odd (val p) = true) (Hgt : (1 < val p)%Z) :
  prime (val p) -> field_laws (fp_ops p Hp Hodd Hgt).
Proof. apply fp_laws. Qed.
Print Assumptions c63_prime_fields.

(** ** C69: the smooth points form an abelian group *)
Theorem c69_group K a b (L : field_laws K) :
  (forall p, sums K a p None p /\ sums K a p (point_neg K p) None) /\
  (forall p q r, on_curve K a b p -> on_curve K a b q -> sums K a p q r -> sums K a q p r) /\
  (forall p q r, on_curve K a b p -> on_curve K a b q -> smooth K a p -> smooth K a q ->
     sums K a p q r -> smooth K a r) /\
  (forall p q r pq qr s, on_curve K a b p -> on_curve K a b q -> on_curve K a b r ->
     smooth K a p -> smooth K a q -> smooth K a r ->
     sums K a p q pq -> sums K a q r qr -> (sums K a pq r s <-> sums K a p qr s)).
Proof.
  split; [|split; [|split]].
  - intros p. split; [constructor|]. destruct p as [[x y]|]; cbn; constructor.
  - intros p q r Hp Hq H. apply (sums_padd K L) in H. subst r. rewrite (padd_comm K L a b) by assumption.
    apply (padd_ok K L a b); assumption.
  - intros p q r Hp Hq Sp Sq H. apply (sums_padd K L) in H. subst r. apply (padd_smooth K L a b); assumption.
  - intros p q r pq qr s Hp Hq Hr Sp Sq Sr Hpq Hqr.
    apply (sums_padd K L) in Hpq, Hqr. subst pq qr.
    pose proof (assoc K L a b p q r Hp Hq Hr Sp Sq Sr) as E. split; intros H; apply (sums_padd K L) in H; subst s.
    + rewrite E. apply (padd_ok K L a b); [assumption|apply (padd_on K L); assumption].
    + rewrite <- E. apply (padd_ok K L a b); [apply (padd_on K L); assumption|assumption].
Qed.
Print Assumptions c69_group.

(** On a curve of nonzero discriminant that is all points. *)
Theorem c69_nonsingular K a b (L : field_laws K) p :
  discriminant K a b <> f0 K -> on_curve K a b p -> smooth K a p.
Proof. apply (nonsingular K L). Qed.
Print Assumptions c69_nonsingular.

(** ** C64: scalar multiplication is repeated addition *)

(** For every string of bits, leading zeros or not; on any curve, singular or not. *)
Theorem c64_multiplication K a b (L : field_laws K) bits p q u (v := affine_point K q) :
  jacobian_point K p u -> on_curve K a b u -> on_curve K a b v ->
  let n := Z.to_nat (bits_value bits) in
  (exists r, jacobian_point K (mul_affine K a q bits) r /\ multiple K a v n r) /\
  (exists r, jacobian_point K (mul_projective K a p bits) r /\ multiple K a u n r) /\
  (exists r, jacobian_point K (mul_bits_be K a p bits) r /\ multiple K a u n r).
Proof.
  intros Hp Hu Hv n. split; [|split].
  - exists (nmul K a v n). split; [apply (mul_affine_ok K L a b); assumption|].
    apply (multiple_nmul K L a b); auto.
  - exists (nmul K a u n). split; [apply (mul_projective_ok K L a b); assumption|].
    apply (multiple_nmul K L a b); auto.
  - exists (nmul K a u n). split; [apply (mul_bits_be_ok K L a b); assumption|].
    apply (multiple_nmul K L a b); auto.
Qed.
Print Assumptions c64_multiplication.

(** For every integer [e], as a limb array. *)
Theorem c64_mul_bigint K a b (L : field_laws K) N e p q u (v := affine_point K q) :
  limbs N e -> jacobian_point K p u -> on_curve K a b u -> on_curve K a b v ->
  let n := Z.to_nat (val e) in
  (exists r, jacobian_point K (mul_affine K a q (bit_be_trimmed_iter e)) r /\ multiple K a v n r) /\
  (exists r, jacobian_point K (mul_projective K a p (bit_be_trimmed_iter e)) r /\ multiple K a u n r) /\
  (exists r, jacobian_point K (mul_bits_be K a p (bit_be_iter e)) r /\ multiple K a u n r).
Proof.
  intros He Hp Hu Hv n.
  destruct (c64_multiplication K a b L (bit_be_trimmed_iter e) p q u Hp Hu Hv) as (H1 & H2 & _).
  destruct (c64_multiplication K a b L (bit_be_iter e) p q u Hp Hu Hv) as (_ & _ & H3).
  rewrite (bits_value_trimmed N) in H1, H2 by assumption. rewrite (bits_value_iter N) in H3 by assumption.
  split; [exact H1|]. split; [exact H2|exact H3].
Qed.
Print Assumptions c64_mul_bigint.

(** Multiples exist, are unique, and add and compose as the numbers do. *)
Theorem c64_multiples K a b (L : field_laws K) p : on_curve K a b p ->
  (forall n, exists q, multiple K a p n q /\ on_curve K a b q /\ forall q', multiple K a p n q' -> q' = q) /\
  (forall m n q r s, multiple K a p m q -> multiple K a p n r -> (sums K a q r s <-> multiple K a p (m + n)%nat s)) /\
  (forall m n q r, multiple K a p m q -> (multiple K a q n r <-> multiple K a p (m * n)%nat r)).
Proof.
  intros H. split; [|split].
  - intros n. exists (nmul K a p n). split; [apply (multiple_nmul K L a b); auto|].
    split; [apply (nmul_on K L), H|]. intros q' Hq. apply (multiple_nmul K L a b) in Hq; auto.
  - intros m n q r s Hq Hr. apply (multiple_nmul K L a b) in Hq, Hr; auto. subst q r.
    rewrite (multiple_nmul K L a b), (nmul_add K L a b) by auto. split.
    + intros Hs. apply (sums_padd K L), Hs.
    + intros ->. apply (padd_ok K L a b); apply (nmul_on K L), H.
  - intros m n q r Hq. apply (multiple_nmul K L a b) in Hq; auto. subst q.
    rewrite !(multiple_nmul K L a b), (nmul_mul K L a b) by auto using nmul_on. reflexivity.
Qed.
Print Assumptions c64_multiples.

(** Batch inversion inverts (and scales) every nonzero entry and keeps the zeros; batch
    normalisation converts every point. Neither panics. *)
Theorem c64_batch_inversion K (L : field_laws K) v coeff :
  exists w, batch_inversion_and_mul K v coeff = Some w /\
    Forall2 (fun x y => match finv K x with None => y = f0 K | Some i => y = fmul K coeff i end) v w.
Proof.
  exists (map (scaled_inverse K coeff) v). split; [apply (batch_ok K L)|].
  induction v as [|x v IH]; constructor; [|exact IH].
  unfold scaled_inverse, inv0. destruct (finv K x) as [i|] eqn:E.
  - destruct (feqb K x (f0 K)) eqn:E0; [|reflexivity]. apply (law_eqb K L) in E0. subst x.
    rewrite (proj2 (law_inv_zero K L _) eq_refl) in E. discriminate.
  - apply (law_inv_zero K L) in E. subst x. rewrite (proj2 (law_eqb K L _ _) eq_refl). reflexivity.
Qed.
Print Assumptions c64_batch_inversion.

Theorem c64_normalize_batch K (L : field_laws K) v :
  exists ws, normalize_batch K v = Some ws /\ map Some ws = map (into_affine K) v.
Proof. destruct (normalize_ok K L v) as (ws & E & H). exists ws. auto. Qed.
Print Assumptions c64_normalize_batch.

(** Summing a list of points adds them one after the other. *)
Theorem c64_sum K a b (L : field_laws K) l : Forall (fun q => on_curve K a b (affine_point K q)) l ->
  exists r, jacobian_point K (sum K a l) r /\ total K a (map (affine_point K) l) r.
Proof.
  intros H. exists (fold_left (padd K a) (map (affine_point K) l) None). split.
  - apply (sum_ok K L a b); [reflexivity|exact I|exact H].
  - assert (Hc : on_curve K a b (fold_left (padd K a) (map (affine_point K) l) None) /\
                 total K a (map (affine_point K) l) (fold_left (padd K a) (map (affine_point K) l) None)); [|apply Hc].
    induction l as [|q l IH] using rev_ind; [split; [exact I|constructor]|].
    apply Forall_app in H as [Hl Hq]. apply Forall_cons_iff in Hq as [Hq _]. destruct (IH Hl) as [I1 I2].
    rewrite map_app, fold_left_app. cbn [map fold_left]. split; [apply (padd_on K L); assumption|].
    econstructor; [exact I2|]. apply (padd_ok K L a b); assumption.
Qed.
Print Assumptions c64_sum.

(** The checked constructors accept exactly the points of the curve that the order of the
    scalar field annihilates, or all points of the curve when the cofactor is declared one. *)
Lemma cofactor_is_one_iff N h : limbs N h -> cofactor_is_one h = true <-> val h = 1%Z.
Proof.
  intros [_ H]. destruct H as [|c l Hc Hl]; cbn [cofactor_is_one val]; [split; discriminate|].
  assert (Hz : forallb (Z.eqb 0) l = true <-> val l = 0%Z).
  { clear Hc. induction Hl as [|x l Hx Hl IH]; cbn [forallb val]; [tauto|].
    rewrite andb_true_iff, IH, Z.eqb_eq. assert (0 <= val l)%Z by (apply (val_bound (length l)); split; auto). lia. }
  assert (0 <= val l)%Z by (apply (val_bound (length l)); split; auto).
  rewrite andb_true_iff, Hz, Z.eqb_eq. lia.
Qed.
Theorem c64_new K a b (L : field_laws K) N M h r x y z : limbs N h -> limbs M r ->
  let member u := on_curve K a b u /\ (val h = 1%Z \/ multiple K a u (Z.to_nat (val r)) None) in
  (member (Some (x, y)) /\ affine_new K a b h r x y = Some (Aff K x y false) \/
   ~ member (Some (x, y)) /\ affine_new K a b h r x y = None) /\
  exists u, jacobian_point K (Prj K x y z) u /\
    (member u /\ (exists p, projective_new K a b h r x y z = Some p /\ jacobian_point K p u) \/
     ~ member u /\ projective_new K a b h r x y z = None).
Proof.
  intros Hh Hr member.
  assert (Hs : forall q, on_curve K a b (affine_point K q) ->
    (is_in_correct_subgroup_assuming_on_curve K a h r q = true <-> member (affine_point K q))).
  { intros q Hq. unfold is_in_correct_subgroup_assuming_on_curve, member.
    rewrite orb_true_iff, (cofactor_is_one_iff N) by assumption.
    pose proof (mul_affine_ok K L a b q (bit_be_trimmed_iter r) Hq) as Hm.
    rewrite (bits_value_trimmed M) in Hm by assumption.
    rewrite (multiple_nmul K L a b) by assumption. rewrite (jac_zero K L).
    split.
    - intros [H|H]; [tauto|]. split; [assumption|]. right. eapply (jac_functional K L); eassumption.
    - intros [_ [H|H]]; [tauto|]. right. rewrite H. exact Hm. }
  split.
  - unfold affine_new. pose proof (is_on_curve_ok K L a b (Aff K x y false)) as Hc.
    specialize (Hs (Aff K x y false)). cbn [affine_point infinity ax ay] in *.
    destruct (is_on_curve K a b _).
    + specialize (Hs (proj1 Hc eq_refl)). destruct (is_in_correct_subgroup_assuming_on_curve K a h r _).
      * left. tauto.
      * right. split; [|reflexivity]. intros H. apply Hs in H. discriminate.
    + right. split; [|reflexivity]. intros [H _]. apply Hc in H. discriminate.
  - destruct (jac_total K L (Prj K x y z)) as [u Hu]. exists u. split; [exact Hu|].
    unfold projective_new. destruct (into_affine_ok K L _ _ Hu) as (q & -> & <- & _).
    pose proof (is_on_curve_ok K L a b q) as Hc. specialize (Hs q).
    destruct (is_on_curve K a b _).
    + specialize (Hs (proj1 Hc eq_refl)). destruct (is_in_correct_subgroup_assuming_on_curve K a h r _).
      * left. split; [tauto|]. eexists. split; [reflexivity|]. apply (from_affine_ok K L).
      * right. split; [|reflexivity]. intros H. apply Hs in H. discriminate.
    + right. split; [|reflexivity]. intros [H _]. apply Hc in H. discriminate.
Qed.
Print Assumptions c64_new.

(** Clearing the cofactor [h] multiplies by it and lands in the subgroup of order [r] when
    [h r] annihilates the point; there, multiplying by an inverse of [h] modulo [r] undoes it. *)
Theorem c64_cofactor K a b (L : field_laws K) N M O h r i p (u := affine_point K p) :
  limbs N h -> limbs M r -> limbs O i -> val r <> 0%Z -> on_curve K a b u ->
  exists q, mul_by_cofactor K a h p = Some q /\ multiple K a u (Z.to_nat (val h)) (affine_point K q) /\
    (multiple K a u (Z.to_nat (val h * val r)) None -> multiple K a (affine_point K q) (Z.to_nat (val r)) None) /\
    (multiple K a u (Z.to_nat (val r)) None -> ((val h * val i) mod val r = 1)%Z ->
     exists p', mul_by_cofactor_inv K a i q = Some p' /\ affine_point K p' = u).
Proof.
  intros Hh Hr Hi Hr0 Hu.
  pose proof (mul_affine_ok K L a b p (bit_be_trimmed_iter h) Hu) as Hm.
  rewrite (bits_value_trimmed N) in Hm by assumption.
  unfold mul_by_cofactor. destruct (into_affine_ok K L _ _ Hm) as (q & -> & Eq & _). fold u in Eq.
  pose proof (val_bound _ _ Hh). pose proof (val_bound _ _ Hr). pose proof (val_bound _ _ Hi).
  assert (Hq : on_curve K a b (affine_point K q)) by (rewrite Eq; apply (nmul_on K L), Hu).
  exists q. split; [reflexivity|]. split; [apply (multiple_nmul K L a b); assumption|]. split.
  - rewrite !(multiple_nmul K L a b) by assumption. intros E. rewrite Eq, (nmul_mul K L a b) by assumption.
    rewrite Z2Nat.inj_mul in E by lia. exact E.
  - rewrite (multiple_nmul K L a b) by assumption. intros E Emod.
    pose proof (mul_affine_ok K L a b q (bit_be_trimmed_iter i) Hq) as Hm'.
    rewrite (bits_value_trimmed O) in Hm' by assumption.
    unfold mul_by_cofactor_inv. destruct (into_affine_ok K L _ _ Hm') as (p' & -> & Ep & _).
    exists p'. split; [reflexivity|]. rewrite Ep, Eq, (nmul_mul K L a b) by assumption.
    rewrite <- Z2Nat.inj_mul by lia.
    rewrite (Z.div_mod (val h * val i) (val r)) by assumption. rewrite Emod.
    rewrite Z2Nat.inj_add, Z2Nat.inj_mul by (try apply Z.mul_nonneg_nonneg; try apply Z.div_pos; nia).
    rewrite (nmul_add K L a b), <- (nmul_mul K L a b), <- E, nmul_none by assumption. reflexivity.
Qed.
Print Assumptions c64_cofactor.

(** The curve [y^2 = x^3 + x + 1] over the field with 23 elements: the sum of two points, a
    doubling, opposite points, a different representative, and the order of a point. *)
Definition m23 (x : Z) : Z := (x mod 23)%Z.
Definition F23 : field_ops := {|
  F := Z; f0 := 0%Z; f1 := 1%Z; fadd x y := m23 (x + y); fsub x y := m23 (x - y); fmul x y := m23 (x * y);
  fneg x := m23 (- x); fdouble x := m23 (2 * x); fsquare x := m23 (x * x);
  finv x := if (x =? 0)%Z then None else Some (m23 (x ^ 21)); feqb := Z.eqb;
  fsop a b := m23 (dot a b); small_extension := true |}.
Definition e23 (x : Z) : F F23 := x.
Definition show (p : option (affine F23)) : option (option (Z * Z)) :=
  match p with
  | Some q => Some (if infinity F23 q then None else Some (ax F23 q, ay F23 q))
  | None => None
  end.
Definition pt x y := Aff F23 (e23 x) (e23 y) false.
Definition one23 := e23 1.
Example c63_ex :
  show (into_affine F23 (aadd F23 one23 (pt 3 10) (pt 9 7))) = Some (Some (17, 20)%Z) /\
  show (into_affine F23 (double_in_place F23 one23 (from_affine F23 (pt 3 10)))) = Some (Some (7, 12)%Z) /\
  show (into_affine F23 (aadd F23 one23 (pt 3 10) (pt 3 13))) = Some None /\
  peq F23 (from_affine F23 (pt 3 10)) (Prj F23 (e23 12) (e23 11) (e23 2)) = true /\
  is_on_curve F23 one23 one23 (pt 3 10) = true /\ is_on_curve F23 one23 one23 (pt 3 11) = false.
Proof. repeat match goal with |- _ /\ _ => split end; vm_compute; reflexivity. Qed.
Example c64_ex :
  show (into_affine F23 (mul_affine F23 one23 (pt 3 10) (bit_be_trimmed_iter [28%Z]))) = Some None /\
  show (into_affine F23 (mul_affine F23 one23 (pt 3 10) (bit_be_trimmed_iter [27%Z]))) = Some (Some (3, 13)%Z) /\
  option_map (map (fun q => show (Some q))) (normalize_batch F23 [pzero F23; Prj F23 (e23 12) (e23 11) (e23 2);
    pzero F23; from_affine F23 (pt 9 7)]) = Some [Some None; Some (Some (3, 10)%Z); Some None; Some (Some (9, 7)%Z)].
Proof. repeat match goal with |- _ /\ _ => split end; vm_compute; reflexivity. Qed.
