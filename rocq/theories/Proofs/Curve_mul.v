(** Multiples, double-and-add, batch inversion and batch normalisation. *)
From Coq Require Import ZArith Lia List Bool Ring_theory Ring Field.
From Verif Require Import Model.Uint Model.Curve Spec.Uint_spec Spec.Fp_spec Spec.Curve_spec.
From Verif Require Import Proofs.Uint_lemmas Proofs.Fp_lemmas Proofs.Curve_lemmas Proofs.Curve_group.
Import ListNotations.

Section mul.
  Context (K : field_ops) (L : field_laws K).
  Notation F := (F K). Notation "0" := (f0 K). Notation "1" := (f1 K).
  Notation "x + y" := (fadd K x y). Notation "x - y" := (fsub K x y).
  Notation "x * y" := (fmul K x y). Notation "- x" := (fneg K x).
  Notation "x == y" := (feqb K x y) (at level 70).
  Add Field Kfield : (field_th K L).
  Context (a b : F).
  Notation on_curve := (on_curve K a b).
  Notation point := (point K).
  Notation padd := (padd K a).
  Notation jac := (jacobian_point K).
  Notation smooth := (smooth K a).
  Notation sums := (sums K a).
  Notation multiple := (multiple K a).

  Fixpoint nmul (p : point) (n : nat) : point :=
    match n with O => None | S n => padd (nmul p n) p end.
  Lemma nmul_on p n : on_curve p -> on_curve (nmul p n).
  Proof. intros H. induction n; [exact I|]. cbn. apply (padd_on K L); assumption. Qed.
  Lemma nmul_smooth p n : on_curve p -> smooth p -> smooth (nmul p n).
  Proof.
    intros H S. induction n; [exact I|]. cbn. apply (padd_smooth K L a b); auto. apply nmul_on, H.
  Qed.
  Lemma multiple_nmul p n q : on_curve p -> multiple p n q <-> q = nmul p n.
  Proof.
    intros H. split.
    - intros Hm. induction Hm; [reflexivity|]. subst. cbn. apply (sums_padd K L); assumption.
    - revert q. induction n; cbn; intros q ->; [constructor|]. econstructor; [apply IHn; reflexivity|].
      apply (padd_ok K L a b); [apply nmul_on|]; exact H.
  Qed.
  Lemma smooth_dec p : on_curve p -> smooth p \/ padd p p = None.
  Proof.
    destruct p as [[x y]|]; [|intros; left; exact I]. intros _.
    destruct (eq_dec K L y 0) as [->|Hy].
    - right. cbn. rewrite (eqb_rfl K L), (neg_zero K L), (eqb_rfl K L). reflexivity.
    - left. intros [? _]. contradiction.
  Qed.
  Lemma nmul_parity p n : padd p p = None -> nmul p n = if Nat.even n then None else p.
  Proof.
    intros H. induction n; [reflexivity|]. cbn [nmul]. rewrite IHn, Nat.even_succ, <- Nat.negb_even.
    destruct (Nat.even n); cbn [negb]; [reflexivity|exact H].
  Qed.
  Lemma nmul_add p m n : on_curve p -> nmul p (m + n)%nat = padd (nmul p m) (nmul p n).
  Proof.
    intros H. destruct (smooth_dec p H) as [S|S].
    - induction n.
      + rewrite Nat.add_0_r. cbn. symmetry. apply padd_zero_r.
      + rewrite Nat.add_succ_r. cbn. rewrite IHn. apply (assoc K L a b); auto using nmul_on, nmul_smooth.
    - rewrite !nmul_parity, Nat.even_add by exact S.
      destruct (Nat.even m), (Nat.even n); cbn [Bool.eqb]; try reflexivity.
      + symmetry. apply padd_zero_r.
      + symmetry. exact S.
  Qed.
  Lemma nmul_mul p m n : on_curve p -> nmul (nmul p m) n = nmul p (m * n)%nat.
  Proof.
    intros H. induction n; [rewrite Nat.mul_0_r; reflexivity|].
    cbn. rewrite IHn, <- nmul_add by exact H. f_equal. lia.
  Qed.
  Lemma nmul_none n : nmul None n = None.
  Proof. induction n; cbn; [reflexivity|]. rewrite IHn. reflexivity. Qed.

  (** ** Double-and-add *)
  Lemma double_nmul p P k : on_curve P -> jac p (nmul P k) -> jac (double_in_place K a p) (nmul P (k + k)%nat).
  Proof.
    intros H Hp. destruct (double_ok K L a _ _ Hp) as (r & Hr & Hs).
    rewrite nmul_add by exact H. rewrite <- (sums_padd K L _ _ _ _ Hs). exact Hr.
  Qed.
  Notation acc := (fold_left (fun e (b : bool) => (2 * e + Z.b2z b)%Z)).
  Lemma loop_ok base P bits : on_curve P -> jac base P -> forall res k, jac res (nmul P k) ->
    jac (double_and_add_loop K a base bits res) (nmul P (Z.to_nat (acc bits (Z.of_nat k)))).
  Proof.
    intros H Hb. induction bits as [|x bits IH]; cbn [double_and_add_loop fold_left]; intros res k Hr.
    - rewrite Nat2Z.id. exact Hr.
    - apply (double_nmul _ _ _ H) in Hr. destruct x.
      + destruct (add_ok K L a b _ _ _ _ Hr Hb (nmul_on _ _ H) H) as (r & Hj & Hs).
        apply (sums_padd K L) in Hs. subst r.
        change (padd (nmul P (k + k)) P) with (nmul P (S (k + k))) in Hj.
        specialize (IH _ _ Hj). replace (Z.of_nat (S (k + k))) with (2 * Z.of_nat k + Z.b2z true)%Z in IH by (unfold Z.b2z; lia).
        exact IH.
      + specialize (IH _ _ Hr). replace (Z.of_nat (k + k)) with (2 * Z.of_nat k + Z.b2z false)%Z in IH by (unfold Z.b2z; lia).
        exact IH.
  Qed.
  Lemma affine_loop_ok base bits : let P := affine_point K base in on_curve P -> forall res k, jac res (nmul P k) ->
    jac (double_and_add_affine_loop K a base bits res) (nmul P (Z.to_nat (acc bits (Z.of_nat k)))).
  Proof.
    intros P H. induction bits as [|x bits IH]; cbn [double_and_add_affine_loop fold_left]; intros res k Hr.
    - rewrite Nat2Z.id. exact Hr.
    - apply (double_nmul _ _ _ H) in Hr. destruct x.
      + destruct (add_affine_ok K L a b _ base _ Hr (nmul_on _ _ H) H) as (r & Hj & Hs).
        apply (sums_padd K L) in Hs. subst r.
        change (padd (nmul P (k + k)) (affine_point K base)) with (nmul P (S (k + k))) in Hj.
        specialize (IH _ _ Hj). replace (Z.of_nat (S (k + k))) with (2 * Z.of_nat k + Z.b2z true)%Z in IH by (unfold Z.b2z; lia).
        exact IH.
      + specialize (IH _ _ Hr). replace (Z.of_nat (k + k)) with (2 * Z.of_nat k + Z.b2z false)%Z in IH by (unfold Z.b2z; lia).
        exact IH.
  Qed.
  Lemma mul_affine_ok base bits : on_curve (affine_point K base) ->
    jac (mul_affine K a base bits) (nmul (affine_point K base) (Z.to_nat (bits_value bits))).
  Proof. intros H. apply (affine_loop_ok base bits H (pzero K) O). reflexivity. Qed.
  Lemma mul_projective_ok base P bits : jac base P -> on_curve P ->
    jac (mul_projective K a base bits) (nmul P (Z.to_nat (bits_value bits))).
  Proof. intros Hb H. apply (loop_ok base P bits H Hb (pzero K) O). reflexivity. Qed.
  Lemma skip_false_value bits : bits_value (skip_false bits) = bits_value bits.
  Proof. induction bits as [|[|] bits IH]; cbn [skip_false]; [reflexivity|reflexivity|exact IH]. Qed.
  Lemma mul_bits_be_ok base P bits : jac base P -> on_curve P ->
    jac (mul_bits_be K a base bits) (nmul P (Z.to_nat (bits_value bits))).
  Proof. intros Hb H. rewrite <- skip_false_value. apply mul_projective_ok; assumption. Qed.

  Lemma sum_ok l : forall p u, jac p u -> on_curve u -> Forall (fun q => on_curve (affine_point K q)) l ->
    jac (fold_left (add_affine K a) l p) (fold_left padd (map (affine_point K) l) u).
  Proof.
    induction l as [|q l IH]; cbn; intros p u Hp Hu Hl; [exact Hp|].
    apply Forall_cons_iff in Hl as [Hq Hl].
    destruct (add_affine_ok K L a b _ _ _ Hp Hu Hq) as (r & Hj & Hs).
    pose proof (sums_padd K L _ _ _ _ Hs) as E. subst r.
    apply IH; [exact Hj|apply (padd_on K L); assumption|exact Hl].
  Qed.

  (** ** Batch inversion *)
  Lemma products_snoc v f : forall t, products K (v ++ [f]) t =
    let '(l, r) := products K v t in if f == 0 then (l, r) else (l ++ [r * f], r * f).
  Proof.
    induction v as [|g v IH]; intros t; cbn [products app].
    - destruct (f == 0); reflexivity.
    - destruct (g == 0); rewrite IH; destruct (products K v _) as [l r]; destruct (f == 0); reflexivity.
  Qed.
  Lemma products_nz v : forall t, t <> 0 -> snd (products K v t) <> 0.
  Proof.
    induction v as [|g v IH]; intros t Ht; cbn; [exact Ht|].
    destruct (g == 0) eqn:E; [apply IH, Ht|].
    specialize (IH (t * g)). destruct (products K v (t * g)) as [l r]. cbn in *. apply IH.
    apply (mul_nz K L); [exact Ht|apply (eqb_f K L), E].
  Qed.
  Definition scaled_inverse (coeff f : F) : F := if f == 0 then f else coeff * inv0 K f.
  Lemma products_last v l r : products K v 1 = (l, r) -> exists ss, rev l ++ [1] = r :: ss.
  Proof.
    revert l r. induction v as [|f v IH] using rev_ind; intros l r; [cbn; intros [= <- <-]; exists []; reflexivity|].
    rewrite products_snoc. destruct (products K v 1) as [l' r'] eqn:E. destruct (f == 0).
    - intros [= <- <-]. eauto.
    - intros [= <- <-]. rewrite rev_unit. eexists; reflexivity.
  Qed.
  Lemma backward_ok coeff v : forall l r tmp, products K v 1 = (l, r) -> tmp * r = coeff ->
    backward K (rev v) (tl (rev l ++ [1])) tmp = rev (map (scaled_inverse coeff) v).
  Proof.
    induction v as [|f v IH] using rev_ind; intros l r tmp; [reflexivity|].
    rewrite products_snoc. destruct (products K v 1) as [l' r'] eqn:E.
    rewrite rev_unit, map_app, rev_app_distr. cbn [map rev app backward].
    unfold scaled_inverse at 1. destruct (f == 0) eqn:Ef.
    - intros [= <- <-] Ht. f_equal. eapply IH; eauto.
    - intros [= <- <-] Ht. rewrite rev_unit. cbn [app tl].
      destruct (products_last _ _ _ E) as [ss Es]. rewrite Es. apply (eqb_f K L) in Ef. f_equal.
      + transitivity (tmp * (r' * f) * inv0 K f); [field; exact Ef|]. rewrite Ht. reflexivity.
      + assert (Ess : ss = tl (rev l' ++ [1])) by (rewrite Es; reflexivity). rewrite Ess.
        eapply IH; [reflexivity|]. rewrite <- Ht. ring.
  Qed.
  Lemma batch_ok v coeff : batch_inversion_and_mul K v coeff = Some (map (scaled_inverse coeff) v).
  Proof.
    unfold batch_inversion_and_mul. destruct (products K v 1) as [l r] eqn:E.
    assert (Hr : r <> 0).
    { change r with (snd (l, r)). rewrite <- E. apply products_nz, (law_one_zero K L). }
    destruct (finv K r) as [ri|] eqn:Ei.
    2:{ apply (law_inv_zero K L) in Ei. contradiction. }
    apply (law_inv K L) in Ei. f_equal. rewrite <- (rev_involutive (map _ v)). f_equal.
    destruct l as [|x l].
    - (* no nonzero element *)
      cbn. clear - E. assert (H : forall w t, products K w t = ([], r) -> forall ss tmp,
        backward K (rev w) ss tmp = rev (map (scaled_inverse coeff) w)).
      { induction w as [|g w IH] using rev_ind; intros t; [reflexivity|]. rewrite products_snoc.
        destruct (products K w t) as [l' r'] eqn:E'. destruct (g == 0) eqn:Eg.
        - intros [= -> ->] ss tmp. rewrite rev_unit, map_app, rev_app_distr. cbn.
          unfold scaled_inverse at 1. rewrite Eg. f_equal. eapply IH, E'.
        - intros [= H _]. destruct l'; discriminate. }
      eapply H, E.
    - assert (E2 : tl (rev (x :: l)) ++ [1] = tl (rev (x :: l) ++ [1])).
      { cbn. destruct (rev l); reflexivity. }
      rewrite E2. eapply backward_ok; [exact E|]. transitivity (coeff * (r * ri)); [ring|]. rewrite Ei. ring.
  Qed.
  Lemma finv_inv0 f : f <> 0 -> finv K f = Some (inv0 K f).
  Proof.
    intros H. unfold inv0. destruct (finv K f) eqn:E; [reflexivity|]. apply (law_inv_zero K L) in E. contradiction.
  Qed.
  Lemma normalize_ok v : exists ws, normalize_batch K v = Some ws /\ map (into_affine K) v = map Some ws.
  Proof.
    unfold normalize_batch, batch_inversion. rewrite batch_ok. eexists. split; [reflexivity|].
    induction v as [|p v IH]; [reflexivity|]. cbn [map combine]. f_equal; [|exact IH].
    unfold into_affine, is_zero, scaled_inverse. destruct (pz K p == 0) eqn:E; [reflexivity|].
    apply (eqb_f K L) in E. assert (Hi := finv_inv0 _ E).
    destruct (pz K p == 1) eqn:E1.
    - apply (eqb_t K L) in E1. rewrite E1 in *. apply (law_inv K L) in Hi.
      assert (E2 : inv0 K 1 = 1) by (transitivity (1 * inv0 K 1); [ring|exact Hi]). rewrite E2, (square_def K L). do 2 f_equal; ring.
    - rewrite Hi, !(square_def K L). do 2 f_equal; ring.
  Qed.
End mul.
