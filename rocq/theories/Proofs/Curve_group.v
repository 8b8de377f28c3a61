(** Associativity of the chord-and-tangent law on the smooth points of a curve. *)
From Coq Require Import List Bool Ring_theory Ring Field.
From Verif Require Import Model.Curve Spec.Curve_spec Proofs.Curve_lemmas.
Import ListNotations.

Section group.
  Context (K : field_ops) (L : field_laws K).
  Notation F := (F K). Notation "0" := (f0 K). Notation "1" := (f1 K).
  Notation "x + y" := (fadd K x y). Notation "x - y" := (fsub K x y).
  Notation "x * y" := (fmul K x y). Notation "- x" := (fneg K x).
  Add Field Kfield : (field_th K L).
  Context (a b : F).
  Notation on_curve := (on_curve K a b).
  Notation point := (point K).
  Notation padd := (padd K a).
  Notation slope := (slope K a).
  Notation neg := (point_neg K).

  Notation smooth := (smooth K a).

  Definition apart (x1 y1 x2 y2 : F) : Prop := x1 <> x2 \/ y1 = y2 /\ y1 <> 0.
  Definition third_x (l x1 x2 : F) := l * l - x1 - x2.
  Definition third_y (l x1 y1 x2 : F) := l * (x1 - third_x l x1 x2) - y1.
  Lemma third_def l x1 y1 x2 : reflected_third K l x1 y1 x2 = Some (third_x l x1 x2, third_y l x1 y1 x2).
  Proof. reflexivity. Qed.
  Lemma slope_y x1 y1 x2 y2 l : slope x1 y1 x2 y2 l -> y1 = y2 + l * (x1 - x2).
  Proof. intros [H _]. rewrite H. ring. Qed.
  Lemma slope_a x1 y1 x2 y2 l : slope x1 y1 x2 y2 l -> a = l * (y1 + y2) - (x1 * x1 + x1 * x2 + x2 * x2).
  Proof. intros [_ H]. rewrite H. ring. Qed.

  (** The slopes of the two ways of adding three points. *)
  Lemma slopes x1 y1 x2 y2 x3 y3 l m s :
    slope x1 y1 x2 y2 l -> slope x3 y3 x2 y2 m ->
    let x4 := third_x l x1 x2 in let y4 := third_y l x1 y1 x2 in
    slope x4 y4 x3 y3 s -> apart x4 y4 x3 y3 ->
    x1 - x3 = (l - m) * (s + l).
  Proof.
    intros Hl Hm x4 y4 Hs Hne. destruct (eq_dec K L x4 x3) as [Ex|Ex].
    - destruct Hne as [|[Hy Hny]]; [contradiction|].
      assert (E2 : y2 + y2 = - ((l + m) * (x3 - x2))).
      { unfold y4, third_y in Hy. fold x4 in Hy. rewrite Ex in Hy.
        rewrite (slope_y _ _ _ _ _ Hm), (slope_y _ _ _ _ _ Hl) in Hy. apply (eq_sub K L) in Hy.
        apply (sub_zero K L). transitivity (- (0 : F)); [|ring]. rewrite <- Hy. ring. }
      assert (E3 : y3 + y3 = (m - l) * (x3 - x2)).
      { rewrite (slope_y _ _ _ _ _ Hm). transitivity (y2 + y2 + (m + m) * (x3 - x2)); [ring|].
        rewrite E2. ring. }
      assert (E1 : x1 = l * l - x2 - x3) by (rewrite <- Ex; unfold x4, third_x; ring).
      assert (Ea : a = - (l * m * (x3 - x2)) - x2 * x2 - x2 * x3 - x3 * x3).
      { rewrite (slope_a _ _ _ _ _ Hl), (slope_y _ _ _ _ _ Hl).
        transitivity (l * (y2 + y2 + l * (x1 - x2)) - (x1 * x1 + x1 * x2 + x2 * x2)); [ring|].
        rewrite E2, E1. ring. }
      rewrite Ex, Hy in Hs. destruct Hs as [_ Hs].
      apply (mul_cancel K L (y3 + y3)); [apply (twice_nz K L); congruence|].
      transitivity ((l - m) * (s * (y3 + y3) + l * (y3 + y3))); [|ring].
      rewrite Hs, E3, Ea, E1. ring.
    - apply (mul_cancel K L (x4 - x3)); [apply (sub_nz K L), Ex|].
      transitivity ((l - m) * (s * (x4 - x3) + l * (x4 - x3))); [|ring].
      rewrite (proj1 Hs). pose proof (slope_a _ _ _ _ _ Hl) as Ea. pose proof (slope_a _ _ _ _ _ Hm) as Ea'.
      rewrite Ea in Ea'. clear Ea. apply (eq_sub K L) in Ea'.
      unfold y4, x4, third_y, third_x in *. rewrite (slope_y _ _ _ _ _ Hl), (slope_y _ _ _ _ _ Hm) in *.
      apply (sub_zero K L). etransitivity; [|exact Ea']. ring.
  Qed.

  Lemma padd_neg p : padd p (neg p) = None.
  Proof.
    destruct p as [[x y]|]; [|reflexivity]. cbn. rewrite (eqb_rfl K L).
    replace (- - y) with y by ring. rewrite (eqb_rfl K L). reflexivity.
  Qed.
  Lemma padd_zero_r p : padd p None = p.
  Proof. destruct p as [[x y]|]; reflexivity. Qed.
  Lemma padd_none p q : on_curve p -> on_curve q -> padd p q = None -> q = neg p.
  Proof.
    intros Hp Hq. destruct p as [[x1 y1]|]; [|cbn; congruence].
    destruct q as [[x2 y2]|]; [|discriminate].
    destruct (padd_some K L _ _ _ _ _ _ Hp Hq) as [(-> & -> & _)|(_ & l & _ & ->)]; [|discriminate].
    intros _. cbn. do 2 f_equal. ring.
  Qed.
  Lemma neg_padd p q : on_curve p -> on_curve q -> padd (neg p) (neg q) = neg (padd p q).
  Proof.
    intros Hp Hq. destruct p as [[x1 y1]|]; [|reflexivity]. destruct q as [[x2 y2]|]; [|reflexivity].
    cbn [point_neg Curve_lemmas.padd]. destruct (feqb K x1 x2) eqn:Ex.
    - apply (eqb_t K L) in Ex. subst x2. destruct (same_x K L _ _ _ _ _ Hp Hq) as [->| ->].
      + destruct (eq_dec K L y2 0) as [->|Hy].
        * rewrite !(neg_zero K L), (eqb_rfl K L). reflexivity.
        * rewrite !(eqb_ne K L); [| |].
          -- unfold reflected_third. cbn. f_equal.
             assert (y2 + y2 <> 0) by (apply (twice_nz K L); exact Hy).
             assert (- y2 + - y2 <> 0).
             { replace (- y2 + - y2) with (- (y2 + y2)) by ring. intros E. apply H.
               transitivity (- - (y2 + y2)); [ring|rewrite E; ring]. }
             f_equal; field; split; assumption.
          -- intros E. apply (self_neg K L) in E. contradiction.
          -- intros E. apply (self_neg K L) in E. apply Hy. transitivity (- - y2); [ring|rewrite E; ring].
      + rewrite (eqb_rfl K L). rewrite (eqb_rfl K L). reflexivity.
    - apply (eqb_f K L) in Ex. unfold reflected_third. cbn.
      assert (x2 - x1 <> 0) by (apply (sub_nz K L); congruence).
      f_equal. f_equal; field; assumption.
  Qed.

  (** A line through a singular point meets the curve twice there. *)
  Lemma padd_smooth p q : on_curve p -> on_curve q -> smooth p -> smooth q -> smooth (padd p q).
  Proof.
    intros Hp Hq Sp Sq. destruct p as [[x1 y1]|]; [|exact Sq]. destruct q as [[x2 y2]|]; [|exact Sp].
    destruct (padd_some K L _ _ _ _ _ _ Hp Hq) as [(_ & _ & ->)|(Hne & l & Hl & ->)]; [exact I|].
    pose proof (third_on K L _ _ _ _ _ _ _ Hp Hq Hne Hl) as Hr.
    rewrite third_def in *. set (x := third_x l x1 x2) in *. set (y := third_y l x1 y1 x2) in *.
    cbn in *. intros [Hy Hs]. rewrite Hy in Hr. 
    assert (N1 : x1 <> x).
    { intros E. apply Sp. rewrite E in *. split; [|exact Hs].
      assert (E' : y1 * y1 = 0) by (rewrite Hp, <- Hr; ring).
      apply (mul_zero K L) in E' as [|]; assumption. }
    assert (N2 : x2 <> x).
    { intros E. apply Sq. rewrite E in *. split; [|exact Hs].
      assert (E' : y2 * y2 = 0) by (rewrite Hq, <- Hr; ring).
      apply (mul_zero K L) in E' as [|]; assumption. }
    assert (E1 : y1 = l * (x1 - x)).
    { unfold y, third_y in Hy. fold x in Hy. transitivity (l * (x1 - x) - (l * (x1 - x) - y1)); [ring|].
      rewrite Hy. ring. }
    (* in coordinates around the singular point the cubic is X^3 + 3 x X^2 *)
    assert (Ea : a = - ((1 + 1 + 1) * (x * x))).
    { transitivity ((1 + 1 + 1) * (x * x) + a - (1 + 1 + 1) * (x * x)); [ring|]. rewrite Hs. ring. }
    assert (Eb : b = - (x * x * x) - a * x).
    { transitivity (x * x * x + a * x + b - x * x * x - a * x); [ring|]. rewrite <- Hr. ring. }
    assert (El : l * l = x1 + x + x).
    { apply (mul_cancel K L ((x1 - x) * (x1 - x))).
      - apply (mul_nz K L); apply (sub_nz K L), N1.
      - transitivity (y1 * y1); [rewrite E1; ring|]. rewrite Hp, Eb, Ea. ring. }
    apply N2. transitivity (l * l - x1 - x); [unfold x, third_x; ring|]. rewrite El. ring.
  Qed.
  Lemma neg_smooth p : smooth p -> smooth (neg p).
  Proof.
    destruct p as [[x y]|]; cbn; [|trivial]. intros H [Hy Hx]. apply H. split; [|exact Hx].
    transitivity (- - y); [ring|rewrite Hy; ring].
  Qed.

  (** [- p + (p + q) = q] *)
  Lemma cancel p q : on_curve p -> on_curve q -> smooth p -> smooth q -> padd (neg p) (padd p q) = q.
  Proof.
    intros Hp Hq Sp Sq. destruct p as [[x1 y1]|]; [|reflexivity].
    destruct q as [[x2 y2]|].
    2:{ cbn [Curve_lemmas.padd]. rewrite (padd_comm K L _ _ _ _ (neg_on K L _ _ _ Hp) Hp). apply padd_neg. }
    destruct (padd_some K L _ _ _ _ _ _ Hp Hq) as [(E1 & E2 & ->)|(Hne & l & Hl & E)].
    { rewrite padd_zero_r, E1, E2. cbn. do 2 f_equal. ring. }
    rewrite E. pose proof (third_on K L _ _ _ _ _ _ _ Hp Hq Hne Hl) as Hr.
    rewrite third_def in *. set (x := third_x l x1 x2) in *. set (y := third_y l x1 y1 x2) in *.
    assert (Hy : y = l * (x1 - x) - y1) by reflexivity.
    pose proof (neg_on K L _ _ _ Hp) as Hn. cbn [point_neg] in *.
    pose proof (slope_y _ _ _ _ _ Hl) as Hy1. pose proof (slope_a _ _ _ _ _ Hl) as Ha.
    destruct (padd_some K L _ _ _ _ _ _ Hn Hr) as [(E1 & E2 & _)|(Hne' & m & Hm & ->)].
    - exfalso.
      (* the third point is the first: the curve is singular there *)
      assert (Y1 : y1 = 0).
      { apply (self_neg K L). transitivity y.
        - transitivity (- - y1); [ring|]. rewrite E2. ring.
        - rewrite Hy, <- E1. ring. }
      apply Sp. split; [exact Y1|].
      assert (El : l * l = x1 + x1 + x2) by (rewrite E1 at 1; unfold x, third_x; ring).
      assert (E3 : l * (y1 + y2) = - (l * l * (x1 - x2))).
      { transitivity (l * (y1 + y1 - (y1 - y2))); [ring|]. rewrite Hy1 at 3. rewrite Y1. ring. }
      rewrite Ha, E3, El. ring.
    - assert (Em : m = - l).
      { destruct (eq_dec K L x1 x) as [Ex|Ex].
        - destruct Hne' as [|[Hyy Hny]]; [contradiction|]. destruct Hm as [_ Hm].
          apply (mul_cancel K L (- y1 + y)).
          + rewrite <- Hyy. apply (twice_nz K L), Hny.
          + assert (Ey : y = - y1) by (rewrite Hy, <- Ex; ring).
            transitivity (m * (- y1 + y)); [ring|]. rewrite Hm, Ey, <- Ex.
            assert (El : x2 = l * l - x1 - x1) by (rewrite Ex at 2; unfold x, third_x; ring).
            rewrite Ha. replace y2 with (y1 - l * (x1 - x2)) by (rewrite Hy1; ring).
            rewrite El. ring.
        - apply (mul_cancel K L (x1 - x)); [apply (sub_nz K L), Ex|].
          transitivity (m * (x1 - x)); [ring|]. rewrite (proj1 Hm), Hy. ring. }
      rewrite Em. unfold reflected_third. cbn. do 2 f_equal.
      + unfold x, third_x. ring.
      + transitivity (y1 - l * (x1 - x2)); [unfold x, third_x; ring|]. rewrite Hy1. ring.
  Qed.

  Lemma nonsingular p : discriminant K a b <> 0 -> on_curve p -> smooth p.
  Proof.
    destruct p as [[x y]|]; [|intros; exact I]. unfold discriminant. cbn. intros Hd Hp [Hy Hs]. apply Hd.
    assert (Ea : a = - ((1 + 1 + 1) * (x * x))).
    { transitivity ((1 + 1 + 1) * (x * x) + a - (1 + 1 + 1) * (x * x)); [ring|]. rewrite Hs. ring. }
    assert (Eb : b = - (x * x * x) - a * x).
    { transitivity (x * x * x + a * x + b - x * x * x - a * x); [ring|]. rewrite <- Hp, Hy. ring. }
    rewrite Eb, Ea. ring.
  Qed.
  Lemma assoc_apart x1 y1 x2 y2 x3 y3 l m s t :
    let x4 := third_x l x1 x2 in let y4 := third_y l x1 y1 x2 in
    let x5 := third_x m x3 x2 in let y5 := third_y m x3 y3 x2 in
    slope x1 y1 x2 y2 l -> slope x3 y3 x2 y2 m ->
    slope x4 y4 x3 y3 s -> apart x4 y4 x3 y3 -> slope x5 y5 x1 y1 t -> apart x5 y5 x1 y1 ->
    ~ (x1 = x3 /\ y1 = y3) ->
    reflected_third K s x4 y4 x3 = reflected_third K t x5 y5 x1.
  Proof.
    intros x4 y4 x5 y5 Hl Hm Hs As Ht At Hn.
    pose proof (slopes _ _ _ _ _ _ _ _ _ Hl Hm Hs As) as E1.
    pose proof (slopes _ _ _ _ _ _ _ _ _ Hm Hl Ht At) as E2.
    assert (Hlm : l - m <> 0).
    { intros E. apply Hn. assert (x1 = x3) by (apply (sub_zero K L); rewrite E1, E; ring).
      split; [assumption|]. rewrite (slope_y _ _ _ _ _ Hl), (slope_y _ _ _ _ _ Hm).
      apply (sub_zero K L) in E. congruence. }
    assert (Et : t = s + l - m).
    { transitivity (t + m - m); [ring|]. f_equal. apply (mul_cancel K L (l - m)); [exact Hlm|].
      rewrite <- E1. transitivity (- ((m - l) * (t + m))); [ring|]. rewrite <- E2. ring. }
    assert (Ex1 : x1 = x3 + (l - m) * (s + l)) by (rewrite <- E1; ring).
    pose proof (slope_y _ _ _ _ _ Hs) as Y4. pose proof (slope_y _ _ _ _ _ Ht) as Y5.
    pose proof (slope_y _ _ _ _ _ Hl) as Y1. pose proof (slope_y _ _ _ _ _ Hm) as Y3.
    unfold reflected_third. cbv zeta. rewrite Y4, Y5, Y1, Y3, Et. unfold x4, x5, third_x.
    rewrite Ex1. do 2 f_equal; ring.
  Qed.

  Lemma assoc_opp p q r : on_curve p -> on_curve q -> on_curve r -> smooth p -> smooth q -> smooth r ->
    r = neg (padd p q) -> padd q r = neg p.
  Proof.
    intros Hp Hq Hr Sp Sq Sr ->.
    rewrite <- (neg_neg K L q) at 1. rewrite (neg_padd (neg q)).
    - f_equal. rewrite (padd_comm K L _ _ _ _ Hp Hq). apply cancel; assumption.
    - apply (neg_on K L), Hq.
    - apply (padd_on K L); assumption.
  Qed.
  Theorem assoc p q r : on_curve p -> on_curve q -> on_curve r -> smooth p -> smooth q -> smooth r ->
    padd (padd p q) r = padd p (padd q r).
  Proof.
    intros Hp Hq Hr Sp Sq Sr.
    pose proof (padd_on K L _ _ _ _ Hp Hq) as Hpq. pose proof (padd_on K L _ _ _ _ Hq Hr) as Hqr.
    pose proof (padd_smooth _ _ Hp Hq Sp Sq) as Spq. pose proof (padd_smooth _ _ Hq Hr Sq Sr) as Sqr.
    pose proof (neg_on K L _ _ _ Hp) as Hnp. pose proof (neg_on K L _ _ _ Hq) as Hnq.
    destruct (padd p q) as [[x4 y4]|] eqn:EPQ.
    2:{ apply padd_none in EPQ; [|assumption..]. subst q. change (padd None r) with r. symmetry.
        rewrite <- (neg_neg K L p) at 1. apply cancel; auto. }
    destruct (padd q r) as [[x5 y5]|] eqn:EQR.
    2:{ apply padd_none in EQR; [|assumption..]. subst r. rewrite padd_zero_r, <- EPQ.
        rewrite (padd_comm K L _ _ _ _ Hp Hq), (padd_comm K L a b (padd q p) (neg q)).
        - apply cancel; assumption.
        - apply (padd_on K L); assumption.
        - exact Hnq. }
    rewrite <- EPQ, <- EQR in *.
    destruct (padd (padd p q) r) as [[x6 y6]|] eqn:EA.
    2:{ apply padd_none in EA; [|assumption..].
        rewrite (assoc_opp _ _ _ Hp Hq Hr Sp Sq Sr EA). symmetry. apply padd_neg. }
    destruct (padd p (padd q r)) as [[x7 y7]|] eqn:EB.
    2:{ exfalso. rewrite (padd_comm K L _ _ _ _ Hp Hqr) in EB. apply padd_none in EB; [|assumption..].
        rewrite (padd_comm K L _ _ _ _ Hq Hr) in EB.
        pose proof (assoc_opp _ _ _ Hr Hq Hp Sr Sq Sp EB) as E.
        rewrite (padd_comm K L _ _ _ _ Hp Hq), E in EA.
        rewrite (padd_comm K L _ _ _ _ (neg_on K L _ _ _ Hr) Hr), padd_neg in EA. discriminate. }
    destruct p as [[x1 y1]|]; [|cbn in EA, EB; congruence].
    destruct q as [[x2 y2]|]; [|cbn in EA, EB; congruence].
    destruct r as [[x3 y3]|]; [|rewrite padd_zero_r in EA, EB; congruence].
    destruct (eq_dec K L x1 x3) as [Ex|Ex]; [destruct (eq_dec K L y1 y3) as [Ey|Ey]|].
    { subst x3 y3. rewrite <- EA, <- EB.
      rewrite (padd_comm K L a b _ _ Hpq Hp), (padd_comm K L a b _ _ Hp Hq). reflexivity. }
    all: rewrite <- EA, <- EB; rewrite (padd_comm K L a b _ _ Hp Hqr) in EB |- *;
      rewrite (padd_comm K L a b _ _ Hq Hr) in EQR, EB |- *;
      rewrite (padd_comm K L a b _ _ Hq Hr) in Hqr;
      (destruct (padd_some K L _ _ _ _ _ _ Hp Hq) as [(_ & _ & E)|(Al & l & Hl & E)];
        [rewrite E in EPQ; discriminate|rewrite E in EA, Hpq |- *; clear E EPQ]);
      (destruct (padd_some K L _ _ _ _ _ _ Hr Hq) as [(_ & _ & E)|(Am & m & Hm & E)];
        [rewrite E in EQR; discriminate|rewrite E in EB, Hqr |- *; clear E EQR]);
      rewrite ?third_def in *;
      (destruct (padd_some K L _ _ _ _ _ _ Hpq Hr) as [(_ & _ & E)|(As & s & Hs & E)];
        [rewrite E in EA; discriminate|rewrite E; clear E EA]);
      (destruct (padd_some K L _ _ _ _ _ _ Hqr Hp) as [(_ & _ & E)|(At & t & Ht & E)];
        [rewrite E in EB; discriminate|rewrite E; clear E EB]);
      eapply assoc_apart; eauto; intros [? ?]; contradiction.
  Qed.
End group.
