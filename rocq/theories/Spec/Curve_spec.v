(** Specification: fields, and the chord-and-tangent law on the points of a short
    Weierstrass curve, with [None] as the point at infinity. *)
From Coq Require Import List Bool Ring_theory.
From Verif Require Import Model.Curve.
Import ListNotations.

(** The operations are those of a field of characteristic other than two. *)
Record field_laws (K : field_ops) : Prop := {
  law_ring : ring_theory (f0 K) (f1 K) (fadd K) (fmul K) (fsub K) (fneg K) eq;
  law_one_zero : f1 K <> f0 K;
  law_two : fadd K (f1 K) (f1 K) <> f0 K;
  law_eqb : forall x y, feqb K x y = true <-> x = y;
  law_double : forall x, fdouble K x = fadd K x x;
  law_square : forall x, fsquare K x = fmul K x x;
  law_inv_zero : forall x, finv K x = None <-> x = f0 K;
  law_inv : forall x y, finv K x = Some y -> fmul K x y = f1 K;
  law_sop : forall a b c d, fsop K [a; b] [c; d] = fadd K (fmul K a c) (fmul K b d)
}.

Section law.
  Context (K : field_ops).
  Notation F := (F K). Notation "0" := (f0 K). Notation "1" := (f1 K).
  Notation "x + y" := (fadd K x y). Notation "x - y" := (fsub K x y).
  Notation "x * y" := (fmul K x y). Notation "- x" := (fneg K x).
  Context (a b : F).

  Definition point : Type := option (F * F).
  Definition on_curve (p : point) : Prop :=
    match p with None => True | Some (x, y) => y * y = x * x * x + a * x + b end.
  Definition point_neg (p : point) : point :=
    match p with None => None | Some (x, y) => Some (x, - y) end.
  (** The third intersection, reflected, of the line of slope [l] through [(x1, y1)] and
      a point with abscissa [x2]. *)
  Definition reflected_third (l x1 y1 x2 : F) : point :=
    let x3 := l * l - x1 - x2 in Some (x3, l * (x1 - x3) - y1).
  (** [p + q = r] *)
  Inductive sums : point -> point -> point -> Prop :=
  | sum_zero_l q : sums None q q
  | sum_zero_r p : sums p None p
  | sum_chord x1 y1 x2 y2 l : x1 <> x2 -> l * (x2 - x1) = y2 - y1 ->
      sums (Some (x1, y1)) (Some (x2, y2)) (reflected_third l x1 y1 x2)
  | sum_tangent x y l : y <> 0 -> l * (y + y) = (1 + 1 + 1) * (x * x) + a ->
      sums (Some (x, y)) (Some (x, y)) (reflected_third l x y x)
  | sum_opposite x y : sums (Some (x, y)) (Some (x, - y)) None.
  (** Not a singular point; a curve of nonzero discriminant has none. *)
  Definition smooth (p : point) : Prop :=
    match p with None => True | Some (x, y) => ~ (y = 0 /\ (1 + 1 + 1) * (x * x) + a = 0) end.
  Definition discriminant : F :=
    let two := 1 + 1 in let three := two + 1 in
    two * two * (a * a * a) + three * three * three * (b * b).
  (** [n] times [p], as repeated addition *)
  Inductive multiple (p : point) : nat -> point -> Prop :=
  | multiple_0 : multiple p O None
  | multiple_S n q r : multiple p n q -> sums q p r -> multiple p (S n) r.
  (** The sum of a list, from left to right *)
  Inductive total : list point -> point -> Prop :=
  | total_nil : total [] None
  | total_snoc l p q r : total l q -> sums q p r -> total (l ++ [p]) r.

  (** The points that affine and Jacobian representations stand for. *)
  Definition affine_point (p : affine K) : point := if infinity K p then None else Some (ax K p, ay K p).
  Definition jacobian_point (p : projective K) (q : point) : Prop :=
    match q with
    | None => pz K p = 0
    | Some (x, y) => pz K p <> 0 /\ px K p = x * (pz K p * pz K p) /\ py K p = y * (pz K p * pz K p * pz K p)
    end.
End law.
