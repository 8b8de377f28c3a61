(** Curve operations in Jacobian coordinates against the chord-and-tangent law. *)
From Coq Require Import List Bool Ring_theory Ring Field.
From Verif Require Import Model.Curve Spec.Curve_spec.
Import ListNotations.

Section curve.
  Context (K : field_ops) (L : field_laws K).
  Notation F := (F K). Notation "0" := (f0 K). Notation "1" := (f1 K).
  Notation "x + y" := (fadd K x y). Notation "x - y" := (fsub K x y).
  Notation "x * y" := (fmul K x y). Notation "- x" := (fneg K x).
  Notation "x == y" := (feqb K x y) (at level 70).

  Definition inv0 (x : F) : F := match finv K x with Some y => y | None => 0 end.
  Definition div (x y : F) : F := x * inv0 y.

  Lemma field_th : field_theory 0 1 (fadd K) (fmul K) (fsub K) (fneg K) div inv0 eq.
  Proof.
    constructor.
    - apply (law_ring K L).
    - apply (law_one_zero K L).
    - reflexivity.
    - intros x Hx. unfold inv0. destruct (finv K x) as [y|] eqn:E.
      + rewrite (ARmul_comm (Rth_ARth (Eqsth _) (Eq_ext _ _ _) (law_ring K L))).
        apply (law_inv K L), E.
      + exfalso. apply Hx, (law_inv_zero K L), E.
  Qed.
  Add Field Kfield : field_th.
  Notation "x / y" := (div x y).

  Lemma eqb_t x y : (x == y) = true -> x = y. Proof. apply (law_eqb K L). Qed.
  Lemma eqb_f x y : (x == y) = false -> x <> y.
  Proof. intros H E. apply (law_eqb K L) in E. congruence. Qed.
  Lemma eqb_ne x y : x <> y -> (x == y) = false.
  Proof. intros H. destruct (x == y) eqn:E; [|reflexivity]. apply eqb_t in E. contradiction. Qed.
  Lemma eqb_rfl x : (x == x) = true. Proof. apply (law_eqb K L); reflexivity. Qed.
  Lemma eq_dec (x y : F) : x = y \/ x <> y.
  Proof. destruct (x == y) eqn:E; [left; apply eqb_t, E|right; apply eqb_f, E]. Qed.

  Lemma mul_zero x y : x * y = 0 -> x = 0 \/ y = 0.
  Proof.
    intros H. destruct (eq_dec x 0) as [|Hx]; [left; assumption|right].
    transitivity (x * y / x); [field; exact Hx|rewrite H; field; exact Hx].
  Qed.
  Lemma mul_nz x y : x <> 0 -> y <> 0 -> x * y <> 0.
  Proof. intros Hx Hy H. destruct (mul_zero _ _ H); contradiction. Qed.
  Lemma mul_cancel c x y : c <> 0 -> c * x = c * y -> x = y.
  Proof.
    intros Hc H. transitivity (c * x / c); [field; exact Hc|rewrite H; field; exact Hc].
  Qed.
  Lemma sub_zero x y : x - y = 0 -> x = y.
  Proof. intros H. transitivity (x - y + y); [ring|rewrite H; ring]. Qed.
  Lemma sub_nz x y : x <> y -> x - y <> 0.
  Proof. intros H E. apply H, sub_zero, E. Qed.
  Lemma eq_sub x y : x = y -> x - y = 0.
  Proof. intros ->. ring. Qed.
  Lemma two_nz : 1 + 1 <> 0. Proof. apply (law_two K L). Qed.
  Lemma twice_nz x : x <> 0 -> x + x <> 0.
  Proof. intros H. replace (x + x) with ((1 + 1) * x) by ring. apply mul_nz; [exact two_nz|exact H]. Qed.
  Lemma self_neg y : y = - y -> y = 0.
  Proof.
    intros H. destruct (eq_dec y 0) as [|Hy]; [assumption|]. exfalso. apply (twice_nz y Hy).
    rewrite H at 2. ring.
  Qed.
  Lemma neg_zero : - 0 = 0. Proof. ring. Qed.
  Lemma div_mul x y : y <> 0 -> x / y * y = x.
  Proof. intros H. field. exact H. Qed.

  Lemma square_def x : fsquare K x = x * x. Proof. apply (law_square K L). Qed.
  Lemma double_def x : fdouble K x = x + x. Proof. apply (law_double K L). Qed.

  Context (a b : F).
  Notation sums := (sums K a).
  Notation on_curve := (on_curve K a b).
  Notation point := (point K).
  Notation jac := (jacobian_point K).

  Lemma mul_by_a_def e : mul_by_a K a e = a * e.
  Proof.
    unfold mul_by_a. destruct (a == 0) eqn:E; [apply eqb_t in E; rewrite E; ring|ring].
  Qed.
  Lemma add_b_def e : add_b K b e = e + b.
  Proof. unfold add_b. destruct (b == 0) eqn:E; [apply eqb_t in E; rewrite E; ring|ring]. Qed.

  Lemma is_on_curve_ok p : is_on_curve K a b p = true <-> on_curve (affine_point K p).
  Proof.
    unfold is_on_curve, affine_point. destruct p as [x y [|]]; cbn [infinity ax ay].
    - cbn. tauto.
    - rewrite add_b_def, mul_by_a_def, !square_def. cbn [Curve_spec.on_curve].
      replace (if a == 0 then x * x * x + b else x * x * x + b + a * x) with (x * x * x + a * x + b).
      + apply (law_eqb K L).
      + destruct (a == 0) eqn:E; [apply eqb_t in E; rewrite E|]; ring.
  Qed.

  (** The law as a function. *)
  Definition padd (p q : point) : point :=
    match p, q with
    | None, _ => q
    | _, None => p
    | Some (x1, y1), Some (x2, y2) =>
        if x1 == x2 then
          if y1 == - y2 then None
          else reflected_third K (((1 + 1 + 1) * (x1 * x1) + a) / (y1 + y1)) x1 y1 x1
        else reflected_third K ((y2 - y1) / (x2 - x1)) x1 y1 x2
    end.
  Lemma same_x x y1 y2 : on_curve (Some (x, y1)) -> on_curve (Some (x, y2)) -> y1 = y2 \/ y1 = - y2.
  Proof.
    cbn. intros H1 H2. assert (E : (y1 - y2) * (y1 + y2) = 0).
    { transitivity (y1 * y1 - y2 * y2); [ring|]. rewrite H1, H2. ring. }
    apply mul_zero in E as [E|E]; [left; apply sub_zero, E|right].
    transitivity (y1 + y2 - y2); [ring|rewrite E; ring].
  Qed.
  Lemma padd_ok p q : on_curve p -> on_curve q -> sums p q (padd p q).
  Proof.
    destruct p as [[x1 y1]|]; [|intros; cbn; constructor].
    destruct q as [[x2 y2]|]; [|intros; cbn; constructor].
    intros Hp Hq. cbn [padd]. destruct (x1 == x2) eqn:Ex.
    - apply eqb_t in Ex. subst x2. destruct (y1 == - y2) eqn:Ey.
      + apply eqb_t in Ey. subst y1. replace y2 with (- - y2) at 2 by ring. constructor.
      + apply eqb_f in Ey. destruct (same_x _ _ _ Hp Hq) as [->|]; [|contradiction].
        assert (Hy : y2 <> 0) by (intros ->; apply Ey; ring).
        constructor; [exact Hy|]. apply div_mul, twice_nz, Hy.
    - apply eqb_f in Ex. constructor; [exact Ex|]. apply div_mul, sub_nz.
      intros E; apply Ex; symmetry; exact E.
  Qed.
  Lemma sums_padd p q r : sums p q r -> r = padd p q.
  Proof.
    intros H. inversion H; subst; cbn [padd].
    - reflexivity.
    - destruct r as [[x y]|]; reflexivity.
    - rewrite eqb_ne by assumption. f_equal.
      assert (x2 - x1 <> 0) by (apply sub_nz; intros E; subst; contradiction).
      apply (mul_cancel (x2 - x1)); [assumption|].
      transitivity (l * (x2 - x1)); [ring|]. rewrite H1. field. assumption.
    - rewrite eqb_rfl, eqb_ne by (intros E; apply self_neg in E; contradiction). f_equal.
      apply (mul_cancel (y + y)); [apply twice_nz; assumption|].
      transitivity (l * (y + y)); [ring|]. rewrite H1. field. exact (twice_nz y H0).
    - rewrite eqb_rfl. replace (- - y) with y by ring. rewrite eqb_rfl. reflexivity.
  Qed.
  Lemma sums_functional p q r r' : sums p q r -> sums p q r' -> r = r'.
  Proof. intros H H'. rewrite (sums_padd _ _ _ H), (sums_padd _ _ _ H'). reflexivity. Qed.

  (** Both forms of the slope of a line through two points that are not opposite. *)
  Definition slope x1 y1 x2 y2 l : Prop :=
    l * (x1 - x2) = y1 - y2 /\ l * (y1 + y2) = x1 * x1 + x1 * x2 + x2 * x2 + a.
  Lemma padd_some x1 y1 x2 y2 : on_curve (Some (x1, y1)) -> on_curve (Some (x2, y2)) ->
    (x1 = x2 /\ y1 = - y2 /\ padd (Some (x1, y1)) (Some (x2, y2)) = None) \/
    ((x1 <> x2 \/ y1 = y2 /\ y1 <> 0) /\ exists l, slope x1 y1 x2 y2 l /\
       padd (Some (x1, y1)) (Some (x2, y2)) = reflected_third K l x1 y1 x2).
  Proof.
    intros Hp Hq. cbn [padd]. destruct (x1 == x2) eqn:Ex.
    - apply eqb_t in Ex. subst x2. destruct (y1 == - y2) eqn:Ey.
      + apply eqb_t in Ey. left. tauto.
      + apply eqb_f in Ey. right. destruct (same_x _ _ _ Hp Hq) as [->|]; [|contradiction].
        assert (Hy : y2 <> 0) by (intros ->; apply Ey; ring).
        split; [tauto|]. eexists. split; [|reflexivity]. split; [ring|].
        rewrite div_mul by (apply twice_nz, Hy). ring.
    - apply eqb_f in Ex. right. split; [tauto|].
      assert (Hn : x2 - x1 <> 0) by (apply sub_nz; congruence).
      eexists. split; [|reflexivity]. cbn in Hp, Hq. split.
      + field. exact Hn.
      + apply (mul_cancel (x2 - x1)); [exact Hn|].
        transitivity (y2 * y2 - y1 * y1); [field; exact Hn|]. rewrite Hp, Hq. ring.
  Qed.
  Lemma slope_sym x1 y1 x2 y2 l : slope x1 y1 x2 y2 l -> slope x2 y2 x1 y1 l.
  Proof.
    intros [H1 H2]. split.
    - transitivity (- (l * (x1 - x2))); [ring|rewrite H1; ring].
    - transitivity (l * (y1 + y2)); [ring|rewrite H2; ring].
  Qed.
  Lemma padd_comm p q : on_curve p -> on_curve q -> padd p q = padd q p.
  Proof.
    destruct p as [[x1 y1]|], q as [[x2 y2]|]; try reflexivity.
    intros Hp Hq. cbn [padd]. destruct (x1 == x2) eqn:Ex.
    - apply eqb_t in Ex. subst x2. rewrite eqb_rfl. destruct (y1 == - y2) eqn:Ey.
      + apply eqb_t in Ey. subst y1. replace (- - y2) with y2 by ring. rewrite eqb_rfl. reflexivity.
      + apply eqb_f in Ey. destruct (same_x _ _ _ Hp Hq) as [->|]; [|contradiction].
        rewrite eqb_ne by assumption. reflexivity.
    - apply eqb_f in Ex. rewrite eqb_ne by congruence. unfold reflected_third. cbv zeta.
      assert (x2 - x1 <> 0) by (apply sub_nz; congruence).
      assert (x1 - x2 <> 0) by (apply sub_nz; congruence).
      f_equal. f_equal; field; split; assumption.
  Qed.
  Lemma neg_on p : on_curve p -> on_curve (point_neg K p).
  Proof. destruct p as [[x y]|]; cbn; [|trivial]. intros <-. ring. Qed.
  Lemma neg_neg (p : point) : point_neg K (point_neg K p) = p.
  Proof. destruct p as [[x y]|]; cbn; [|reflexivity]. do 2 f_equal. ring. Qed.
  Lemma third_on x1 y1 x2 y2 l : on_curve (Some (x1, y1)) -> on_curve (Some (x2, y2)) ->
    x1 <> x2 \/ y1 = y2 /\ y1 <> 0 -> slope x1 y1 x2 y2 l -> on_curve (reflected_third K l x1 y1 x2).
  Proof.
    intros Hp Hq Hne [Hs1 Hs2]. unfold reflected_third. cbn in *.
    assert (E2 : y2 = y1 - l * (x1 - x2)) by (rewrite Hs1; ring).
    rewrite E2 in *. clear E2 Hs1.
    assert (Ea : a = l * (y1 + (y1 - l * (x1 - x2))) - x1 * x1 - x1 * x2 - x2 * x2).
    { rewrite Hs2. ring. }
    assert (Eb : b = y1 * y1 - x1 * x1 * x1 - a * x1) by (rewrite Hp; ring).
    rewrite Eb, Ea. ring.
  Qed.
  Lemma padd_on p q : on_curve p -> on_curve q -> on_curve (padd p q).
  Proof.
    intros Hp Hq. destruct p as [[x1 y1]|]; [|exact Hq]. destruct q as [[x2 y2]|]; [|exact Hp].
    destruct (padd_some _ _ _ _ Hp Hq) as [(_ & _ & ->)|(Hne & l & Hl & ->)]; [exact I|].
    eapply third_on; eauto.
  Qed.

  (** ** The representations *)
  Lemma jac_functional p q q' : jac p q -> jac p q' -> q = q'.
  Proof.
    destruct q as [[x y]|], q' as [[x' y']|]; cbn; try tauto.
    intros (Hz & Hx & Hy) (_ & Hx' & Hy'). do 2 f_equal.
    - apply (mul_cancel (pz K p * pz K p)); [apply mul_nz; assumption|].
      transitivity (px K p); [rewrite Hx; ring|rewrite Hx'; ring].
    - apply (mul_cancel (pz K p * pz K p * pz K p)); [repeat apply mul_nz; assumption|].
      transitivity (py K p); [rewrite Hy; ring|rewrite Hy'; ring].
  Qed.
  Lemma jac_total p : exists q, jac p q.
  Proof.
    destruct (eq_dec (pz K p) 0) as [E|E]; [exists None; exact E|].
    exists (Some (px K p / (pz K p * pz K p), py K p / (pz K p * pz K p * pz K p))). cbn.
    split; [exact E|split; field; exact E].
  Qed.
  Lemma jac_zero p : is_zero K p = true <-> jac p None.
  Proof. unfold is_zero. cbn. apply (law_eqb K L). Qed.
  Lemma jac_nonzero p x y : jac p (Some (x, y)) -> is_zero K p = false.
  Proof. intros (H & _). apply eqb_ne, H. Qed.

  Lemma pzero_ok : jac (pzero K) None. Proof. reflexivity. Qed.
  Lemma from_affine_ok p : jac (from_affine K p) (affine_point K p).
  Proof.
    unfold from_affine, xy, affine_point. destruct p as [x y [|]]; cbn; [reflexivity|].
    split; [apply (law_one_zero K L)|split; ring].
  Qed.
  Lemma into_affine_ok p q : jac p q ->
    exists r, into_affine K p = Some r /\ affine_point K r = q /\ (q = None -> r = identity K).
  Proof.
    intros H. unfold into_affine. destruct q as [[x y]|].
    - rewrite (jac_nonzero _ _ _ H). destruct H as (Hz & Hx & Hy).
      destruct (pz K p == 1) eqn:E1.
      + apply eqb_t in E1. eexists. split; [reflexivity|]. split; [|discriminate]. cbn.
        rewrite Hx, Hy, E1. do 2 f_equal; ring.
      + destruct (finv K (pz K p)) as [zi|] eqn:Ei.
        * apply (law_inv K L) in Ei. eexists. split; [reflexivity|]. split; [|discriminate]. cbn.
          rewrite square_def, Hx, Hy. do 2 f_equal.
          -- transitivity (x * (pz K p * zi) * (pz K p * zi)); [ring|rewrite Ei; ring].
          -- transitivity (y * (pz K p * zi) * (pz K p * zi) * (pz K p * zi)); [ring|rewrite Ei; ring].
        * exfalso. apply Hz, (law_inv_zero K L), Ei.
    - apply jac_zero in H. rewrite H. eexists. split; [reflexivity|]. split; [reflexivity|trivial].
  Qed.
  Lemma peq_ok p q u v : jac p u -> jac q v -> (peq K p q = true <-> u = v).
  Proof.
    intros Hp Hq. unfold peq. destruct u as [[x1 y1]|], v as [[x2 y2]|].
    - rewrite (jac_nonzero _ _ _ Hp), (jac_nonzero _ _ _ Hq). rewrite !square_def.
      destruct p as [X1 Y1 Z1], q as [X2 Y2 Z2]. cbn in *.
      destruct Hp as (Hz1 & -> & ->), Hq as (Hz2 & -> & ->).
      destruct (x1 * (Z1 * Z1) * (Z2 * Z2) == x2 * (Z2 * Z2) * (Z1 * Z1)) eqn:E.
      + apply eqb_t in E.
        assert (x1 = x2).
        { apply (mul_cancel (Z1 * Z1 * (Z2 * Z2))); [repeat apply mul_nz; assumption|].
          etransitivity; [|etransitivity; [exact E|]]; ring. }
        rewrite (law_eqb K L). split.
        * intros E'. subst x2. do 2 f_equal.
          apply (mul_cancel (Z1 * Z1 * Z1 * (Z2 * Z2 * Z2))); [repeat apply mul_nz; assumption|].
          etransitivity; [|etransitivity; [exact E'|]]; ring.
        * intros E'. injection E' as -> ->. ring.
      + apply eqb_f in E. split; [discriminate|]. intros E'. injection E' as -> ->.
        exfalso. apply E. ring.
    - rewrite (jac_nonzero _ _ _ Hp). apply jac_zero in Hq. rewrite Hq. split; discriminate.
    - apply jac_zero in Hp. rewrite Hp, (jac_nonzero _ _ _ Hq). split; discriminate.
    - apply jac_zero in Hp, Hq. rewrite Hp, Hq. tauto.
  Qed.
  Lemma pneg_ok p q : jac p q -> jac (pneg K p) (point_neg K q).
  Proof.
    destruct q as [[x y]|]; cbn; [|trivial]. intros (Hz & Hx & Hy).
    split; [exact Hz|split; [exact Hx|rewrite Hy; ring]].
  Qed.
  Lemma aneg_ok p : affine_point K (aneg K p) = point_neg K (affine_point K p).
  Proof. destruct p as [x y [|]]; reflexivity. Qed.

  Lemma double_ok p q : jac p q -> exists r, jac (double_in_place K a p) r /\ sums q q r.
  Proof.
    intros H. unfold double_in_place. destruct q as [[x y]|].
    2:{ assert (E := proj2 (jac_zero _) H). rewrite E. exists None. split; [exact H|constructor]. }
    rewrite (jac_nonzero _ _ _ H). destruct p as [X Y Z]. cbn in *. destruct H as (Hz & -> & ->).
    rewrite mul_by_a_def, ?square_def, ?double_def.
    destruct (eq_dec y 0) as [Hy|Hy].
    - exists None. split.
      + subst y. destruct (a == 0); cbn; ring.
      + subst y. rewrite <- neg_zero at 2. constructor.
    - assert (H2 := twice_nz _ Hy). eexists. split; [|apply (sum_tangent K a x y _ Hy (div_mul _ _ H2))].
      assert (H2' := two_nz).
      destruct (a == 0) eqn:Ea.
      + apply eqb_t in Ea. rewrite Ea. clear Ea. destruct (small_extension K); unfold reflected_third; cbn.
        all: rewrite ?square_def, ?double_def.
        all: split; [replace (Z * (y * (Z * Z * Z)) + Z * (y * (Z * Z * Z))) with ((1 + 1) * y * (Z * Z * Z * Z)) by ring;
                     repeat apply mul_nz; assumption|].
        all: split; field; exact H2.
      + unfold reflected_third; cbn. rewrite ?square_def, ?double_def.
        split; [replace (Z * (y * (Z * Z * Z)) + Z * (y * (Z * Z * Z))) with ((1 + 1) * y * (Z * Z * Z * Z)) by ring;
                     repeat apply mul_nz; assumption|].
        split; field; exact H2.
  Qed.
  Lemma opposite_sum x y1 y2 : on_curve (Some (x, y1)) -> on_curve (Some (x, y2)) -> y1 <> y2 ->
    sums (Some (x, y1)) (Some (x, y2)) None.
  Proof.
    intros H1 H2 Hn. destruct (same_x _ _ _ H2 H1) as [E|E]; [congruence|]. rewrite E. constructor.
  Qed.
  Lemma add_ok p q u v : jac p u -> jac q v -> on_curve u -> on_curve v ->
    exists r, jac (add K a p q) r /\ sums u v r.
  Proof.
    intros Hp Hq Hu Hv. unfold add. destruct u as [[x1 y1]|].
    2:{ assert (E := proj2 (jac_zero _) Hp). rewrite E. exists v. split; [exact Hq|constructor]. }
    rewrite (jac_nonzero _ _ _ Hp). destruct v as [[x2 y2]|].
    2:{ assert (E := proj2 (jac_zero _) Hq). rewrite E. eexists. split; [exact Hp|constructor]. }
    rewrite (jac_nonzero _ _ _ Hq). cbv zeta. rewrite ?square_def, ?double_def, (law_sop K L).
    pose proof Hp as Hp'. destruct p as [X1 Y1 Z1], q as [X2 Y2 Z2]. cbn [px py pz jacobian_point] in *.
    destruct Hp as (Hz1 & HX1 & HY1), Hq as (Hz2 & HX2 & HY2).
    destruct (X1 * (Z2 * Z2) == X2 * (Z1 * Z1)) eqn:Ex.
    - apply eqb_t in Ex. subst X1 X2.
      assert (x1 = x2).
      { apply (mul_cancel (Z1 * Z1 * (Z2 * Z2))); [repeat apply mul_nz; assumption|].
        etransitivity; [|etransitivity; [exact Ex|]]; ring. }
      subst x2. destruct (Y1 * Z2 * (Z2 * Z2) == Y2 * Z1 * (Z1 * Z1)) eqn:Ey.
      + apply eqb_t in Ey. subst Y1 Y2. assert (y1 = y2).
        { apply (mul_cancel (Z1 * Z1 * Z1 * (Z2 * Z2 * Z2))); [repeat apply mul_nz; assumption|].
          etransitivity; [|etransitivity; [exact Ey|]]; ring. }
        subst y2. apply double_ok, Hp'.
      + apply eqb_f in Ey. exists None. split; [reflexivity|]. apply opposite_sum; [exact Hu|exact Hv|].
        intros <-. apply Ey. subst. ring.
    - apply eqb_f in Ex. assert (Hn : x1 <> x2) by (intros <-; apply Ex; subst; ring).
      assert (Hd : x2 - x1 <> 0) by (apply sub_nz; congruence).
      assert (H2 := two_nz).
      eexists. split; [|apply (sum_chord K a x1 y1 x2 y2 _ Hn (div_mul _ _ Hd))].
      subst X1 X2 Y1 Y2. unfold reflected_third. cbn. split.
      + replace ((Z1 * Z2 + Z1 * Z2) * (x2 * (Z2 * Z2) * (Z1 * Z1) - x1 * (Z1 * Z1) * (Z2 * Z2)))
          with ((1 + 1) * (Z1 * Z1 * Z1) * (Z2 * Z2 * Z2) * (x2 - x1)) by ring.
        repeat apply mul_nz; assumption.
      + split; field; exact Hd.
  Qed.
  Lemma add_affine_ok p q u : jac p u -> on_curve u -> on_curve (affine_point K q) ->
    exists r, jac (add_affine K a p q) r /\ sums u (affine_point K q) r.
  Proof.
    unfold affine_point. intros Hp Hu Hv. unfold add_affine, xy. destruct q as [x2 y2 [|]]; cbn [infinity ax ay] in *.
    { exists u. split; [exact Hp|constructor]. }
    destruct u as [[x1 y1]|].
    2:{ assert (E := proj2 (jac_zero _) Hp). rewrite E. eexists. split; [|constructor].
        cbn. split; [apply (law_one_zero K L)|split; ring]. }
    rewrite (jac_nonzero _ _ _ Hp). cbv zeta. rewrite ?square_def, ?double_def, (law_sop K L).
    pose proof Hp as Hp'. destruct p as [X1 Y1 Z1]. cbn [px py pz jacobian_point] in *.
    destruct Hp as (Hz1 & HX1 & HY1).
    destruct (X1 == x2 * (Z1 * Z1)) eqn:Ex.
    - apply eqb_t in Ex. assert (x1 = x2).
      { apply (mul_cancel (Z1 * Z1)); [repeat apply mul_nz; assumption|].
        etransitivity; [|etransitivity; [symmetry; exact HX1|etransitivity; [exact Ex|]]]; ring. }
      subst x2. destruct (Y1 == Z1 * y2 * (Z1 * Z1)) eqn:Ey.
      + apply eqb_t in Ey. assert (y1 = y2).
        { apply (mul_cancel (Z1 * Z1 * Z1)); [repeat apply mul_nz; assumption|].
          etransitivity; [|etransitivity; [symmetry; exact HY1|etransitivity; [exact Ey|]]]; ring. }
        subst y2. apply double_ok, Hp'.
      + apply eqb_f in Ey. exists None. split; [reflexivity|]. apply opposite_sum; [exact Hu|exact Hv|].
        intros <-. apply Ey. subst. ring.
    - apply eqb_f in Ex. assert (Hn : x1 <> x2) by (intros <-; apply Ex; subst; ring).
      assert (Hd : x2 - x1 <> 0) by (apply sub_nz; congruence).
      assert (H2 := two_nz).
      eexists. split; [|apply (sum_chord K a x1 y1 x2 y2 _ Hn (div_mul _ _ Hd))].
      subst X1 Y1. unfold reflected_third. cbn. split.
      + replace (Z1 * (x2 * (Z1 * Z1) - x1 * (Z1 * Z1)) + Z1 * (x2 * (Z1 * Z1) - x1 * (Z1 * Z1)))
          with ((1 + 1) * (Z1 * Z1 * Z1) * (x2 - x1)) by ring.
        repeat apply mul_nz; assumption.
      + split; field; exact Hd.
  Qed.
End curve.
