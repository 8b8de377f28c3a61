(** Model of lib/crypto/src/curve: short Weierstrass curves over an arbitrary field.

    The field is given by the operations the curve code uses ([Field], [AdditiveGroup] of
    lib/crypto/src/field); [Model/Fp.v] is one implementation of them. [None] as a result
    of a curve function stands for a panic. *)
From Coq Require Import ZArith List Bool.
From Verif Require Import Model.Uint.
Import ListNotations.

(** lib/crypto/src/field/mod.rs, field/group.rs *)
Record field_ops := {
  F : Type;
  f0 : F; f1 : F;
  fadd : F -> F -> F; fsub : F -> F -> F; fmul : F -> F -> F; fneg : F -> F;
  fdouble : F -> F; fsquare : F -> F;
  finv : F -> option F;            (* [inverse] *)
  feqb : F -> F -> bool;           (* [==]; [is_zero], [is_one] compare with the constants *)
  fsop : list F -> list F -> F;    (* [sum_of_products] *)
  small_extension : bool           (* [extension_degree] is 1 or 2 *)
}.

Section curve.
  Context (K : field_ops).
  Notation F := (F K). Notation "0" := (f0 K). Notation "1" := (f1 K).
  Notation "x + y" := (fadd K x y). Notation "x - y" := (fsub K x y).
  Notation "x * y" := (fmul K x y). Notation "- x" := (fneg K x).
  Notation "x == y" := (feqb K x y) (at level 70).
  Notation double := (fdouble K). Notation square := (fsquare K).
  (** sw/mod.rs:30-35: the coefficients of [y^2 = x^3 + a x + b] *)
  Context (COEFF_A COEFF_B : F).

  (** sw/affine.rs:28-35, sw/projective.rs:32-39 *)
  Record affine := Aff { ax : F; ay : F; infinity : bool }.
  Record projective := Prj { px : F; py : F; pz : F }.

  (** sw/mod.rs:41-61 *)
  Definition mul_by_a (e : F) : F := if COEFF_A == 0 then 0 else e * COEFF_A.
  Definition add_b (e : F) : F := if COEFF_B == 0 then e else e + COEFF_B.

  (** sw/affine.rs:90-106, 137-148 *)
  Definition identity : affine := Aff 0 0 true.
  Definition is_on_curve (p : affine) : bool :=
    if infinity p then true else
    let x3b := add_b (square (ax p) * ax p) in
    let x3b := if COEFF_A == 0 then x3b else x3b + mul_by_a (ax p) in
    square (ay p) == x3b.
  Definition xy (p : affine) : option (F * F) := if infinity p then None else Some (ax p, ay p).
  (** sw/affine.rs:171-174 *)
  Definition aneg (p : affine) : affine := Aff (ax p) (- ay p) (infinity p).

  (** sw/projective.rs:135-150 *)
  Definition pzero : projective := Prj 1 1 0.
  Definition is_zero (p : projective) : bool := pz p == 0.
  (** sw/projective.rs:58-80 *)
  Definition peq (p q : projective) : bool :=
    if is_zero p then is_zero q else
    if is_zero q then false else
    let z1z1 := square (pz p) in
    let z2z2 := square (pz q) in
    if px p * z2z2 == px q * z1z1 then py p * (z2z2 * pz q) == py q * (z1z1 * pz p) else false.
  (** sw/projective.rs:582-588 *)
  Definition from_affine (p : affine) : projective :=
    match xy p with None => pzero | Some (x, y) => Prj x y 1 end.
  (** sw/affine.rs:246-269 *)
  Definition into_affine (p : projective) : option affine :=
    if is_zero p then Some identity else
    if pz p == 1 then Some (Aff (px p) (py p) false) else
    match finv K (pz p) with
    | None => None
    | Some zinv =>
        let zinv_squared := square zinv in
        Some (Aff (px p * zinv_squared) (py p * zinv_squared * zinv) false)
    end.

  (** sw/projective.rs:168-268 *)
  Definition double_in_place (p : projective) : projective :=
    if is_zero p then p else
    if COEFF_A == 0 then
      let a := square (px p) in
      let b := square (py p) in
      let c := square b in
      let d := if small_extension K then double (double (px p * b))
               else double (square (px p + b) - a - c) in
      let e := a + double a in
      let z := double (pz p * py p) in
      let x := square e - double d in
      let y := (d - x) * e - double (double (double c)) in
      Prj x y z
    else
      let xx := square (px p) in
      let yy := square (py p) in
      let yyyy := square yy in
      let zz := square (pz p) in
      let s := double (square (px p + yy) - xx - yyyy) in
      let m := double xx + xx + mul_by_a (square zz) in
      let x := square m - double s in
      let z := double (pz p * py p) in
      let y := (s - x) * m - double (double (double yyyy)) in
      Prj x y z.
  (** sw/projective.rs:326-333 *)
  Definition pneg (p : projective) : projective := Prj (px p) (- py p) (pz p).
  (** sw/projective.rs:336-413: mixed addition *)
  Definition add_affine (p : projective) (q : affine) : projective :=
    match xy q with
    | None => p
    | Some (qx, qy) =>
        if is_zero p then Prj qx qy 1 else
        let z1z1 := square (pz p) in
        let u2 := qx * z1z1 in
        let s2 := pz p * qy * z1z1 in
        if px p == u2 then
          if py p == s2 then double_in_place p else pzero
        else
          let h := u2 - px p in
          let hh := square h in
          let i := double (double hh) in
          let j := (- h) * i in
          let r := double (s2 - py p) in
          let v := px p * i in
          let x := square r + j - double v in
          let v := v - x in
          let y := fsop K [r; double (py p)] [v; j] in
          let z := double (pz p * h) in
          Prj x y z
    end.
  (** sw/projective.rs:452-541 *)
  Definition add (p q : projective) : projective :=
    if is_zero p then q else
    if is_zero q then p else
    let z1z1 := square (pz p) in
    let z2z2 := square (pz q) in
    let u1 := px p * z2z2 in
    let u2 := px q * z1z1 in
    let s1 := py p * pz q * z2z2 in
    let s2 := py q * pz p * z1z1 in
    if u1 == u2 then
      if s1 == s2 then double_in_place p else pzero
    else
      let h := u2 - u1 in
      let i := square (double h) in
      let j := (- h) * i in
      let r := double (s2 - s1) in
      let v := u1 * i in
      let x := square r + j - double v in
      let v := v - x in
      let y := fsop K [r; double s1] [v; j] in
      let z := double (pz p * pz q) * h in
      Prj x y z.
  (** sw/projective.rs:426-430, 554-558; sw/affine.rs:177-239 *)
  Definition sub_affine (p : projective) (q : affine) : projective := add_affine p (aneg q).
  Definition sub (p q : projective) : projective := add p (pneg q).
  Definition aadd (p q : affine) : projective := add_affine (from_affine p) q.
  Definition asub (p q : affine) : projective := sub_affine (from_affine p) q.
  (** sw/projective.rs:590-597 *)
  Definition sum (l : list affine) : projective := fold_left add_affine l pzero.

  (** sw/mod.rs:103-136; the bits of the scalar, most significant first *)
  Fixpoint double_and_add_affine_loop (base : affine) (bits : list bool) (res : projective) : projective :=
    match bits with
    | [] => res
    | b :: bits' =>
        let res := double_in_place res in
        double_and_add_affine_loop base bits' (if b : bool then add_affine res base else res)
    end.
  Definition mul_affine (base : affine) (trimmed_bits : list bool) : projective :=
    double_and_add_affine_loop base trimmed_bits pzero.
  Fixpoint double_and_add_loop (base : projective) (bits : list bool) (res : projective) : projective :=
    match bits with
    | [] => res
    | b :: bits' =>
        let res := double_in_place res in
        double_and_add_loop base bits' (if b : bool then add res base else res)
    end.
  Definition mul_projective (base : projective) (trimmed_bits : list bool) : projective :=
    double_and_add_loop base trimmed_bits pzero.
  (** curve/mod.rs:65-75 *)
  Fixpoint skip_false (bits : list bool) : list bool :=
    match bits with false :: bits' => skip_false bits' | _ => bits end.
  Definition mul_bits_be (base : projective) (bits : list bool) : projective :=
    double_and_add_loop base (skip_false bits) pzero.

  (** curve/mod.rs:246-285: the prefix products of the nonzero elements, and their product *)
  Fixpoint products (v : list F) (tmp : F) : list F * F :=
    match v with
    | [] => ([], tmp)
    | f :: v' =>
        if f == 0 then products v' tmp
        else let tmp := tmp * f in let '(l, r) := products v' tmp in (tmp :: l, r)
    end.
  (** the backward pass over the reversed vector, zipped with [ss] *)
  Fixpoint backward (v ss : list F) (tmp : F) : list F :=
    match v with
    | [] => []
    | f :: v' =>
        if f == 0 then f :: backward v' ss tmp
        else match ss with [] => v | s :: ss' => tmp * s :: backward v' ss' (tmp * f) end
    end.
  Definition batch_inversion_and_mul (v : list F) (coeff : F) : option (list F) :=
    let '(prod, tmp) := products v 1 in
    match finv K tmp with
    | None => None
    | Some tmp => Some (rev (backward (rev v) (tl (rev prod) ++ [1]) (tmp * coeff)))
    end.
  Definition batch_inversion (v : list F) : option (list F) := batch_inversion_and_mul v 1.
  (** sw/projective.rs:304-323 *)
  Definition normalize_batch (v : list projective) : option (list affine) :=
    match batch_inversion (map pz v) with
    | None => None
    | Some z_s => Some (map (fun '(g, z) =>
        if is_zero g then identity else
        let z2 := square z in Aff (px g * z2) (py g * z2 * z) false) (combine v z_s))
    end.

  (** curve/mod.rs:43-46 *)
  Definition cofactor_is_one (cofactor : list Z) : bool :=
    match cofactor with [] => false | c :: l => Z.eqb c 1 && forallb (Z.eqb 0) l end.
  (** sw/mod.rs:72-83; [r] is the characteristic of the scalar field *)
  Definition is_in_correct_subgroup_assuming_on_curve (cofactor r : list Z) (item : affine) : bool :=
    cofactor_is_one cofactor || is_zero (mul_affine item (bit_be_trimmed_iter r)).
  (** sw/affine.rs:72-77, sw/projective.rs:119-124 *)
  Definition affine_new (cofactor r : list Z) (x y : F) : option affine :=
    let point := Aff x y false in
    if is_on_curve point then
      if is_in_correct_subgroup_assuming_on_curve cofactor r point then Some point else None
    else None.
  Definition projective_new (cofactor r : list Z) (x y z : F) : option projective :=
    match into_affine (Prj x y z) with
    | None => None
    | Some p =>
        if is_on_curve p then
          if is_in_correct_subgroup_assuming_on_curve cofactor r p then Some (from_affine p) else None
        else None
    end.
  (** curve/mod.rs:227-236, sw/affine.rs:153-162 *)
  Definition mul_by_cofactor (cofactor : list Z) (p : affine) : option affine :=
    into_affine (mul_affine p (bit_be_trimmed_iter cofactor)).
  Definition mul_by_cofactor_inv (cofactor_inv : list Z) (p : affine) : option affine :=
    into_affine (mul_affine p (bit_be_trimmed_iter cofactor_inv)).
End curve.
