(** Model of contracts/src/utils/math/alloy.rs (trait Math for U256). *)
From Verif.Base Require Import Prelude.
#[global] Open Scope Z_scope.

(** alloy.rs:40-45 *)
Inductive rounding := Floor | Ceil.

(** One test of the first estimation, e.g. alloy.rs:75-78 with [n] = 128:
    [if aa >= (one << n) { aa >>= n; xn <<= n / 2; }] *)
Definition sqrt_shift (n : Z) (st : Z * Z) : Z * Z :=
  let '(aa, xn) := st in
  if wshl 1 n <=? aa then (aa / 2 ^ n, wshl xn (n / 2)) else (aa, xn).

(** One Newton step, alloy.rs:143-148: [xn = (xn + a / xn) >> 1] *)
Definition newton (a xn : Z) : Z := wadd xn (a / xn) / 2.

(** alloy.rs:48-157 *)
Definition sqrt (a : Z) : Z :=
  if a <=? 1 then a                                                (* 51-53 *)
  else
    let st := (a, 1) in                                            (* 72-73 *)
    let st := sqrt_shift 128 st in                                 (* 75-78 *)
    let st := sqrt_shift 64 st in                                  (* 79-82 *)
    let st := sqrt_shift 32 st in                                  (* 83-86 *)
    let st := sqrt_shift 16 st in                                  (* 87-90 *)
    let st := sqrt_shift 8 st in                                   (* 91-94 *)
    let st := sqrt_shift 4 st in                                   (* 95-98 *)
    let '(aa, xn) := st in
    let xn := if wshl 1 2 <=? aa then wshl xn 1 else xn in         (* 99-101 *)
    let xn := wmul 3 xn / 2 in                                     (* 110 *)
    let xn := newton a xn in                                       (* 143 *)
    let xn := newton a xn in                                       (* 144 *)
    let xn := newton a xn in                                       (* 145 *)
    let xn := newton a xn in                                       (* 146 *)
    let xn := newton a xn in                                       (* 147 *)
    let xn := newton a xn in                                       (* 148 *)
    wsub xn (if a / xn <? xn then 1 else 0).                       (* 156 *)

(** alloy.rs:159-167 *)
Definition average (a b : Z) : Z := wadd (Z.land a b) (Z.lxor a b / 2).

Definition two512 : Z := 2 ^ 512.
(** alloy.rs:169-196: 512-bit intermediate product, explicit panics. *)
Definition mul_div {E} (x y denominator : Z) (r : rounding) : res E Z :=
  if denominator =? 0 then Panic                                   (* 170-173 *)
  else
    let prod := x * y in                                           (* 175-177, checked *)
    if two512 <=? prod then Panic
    else
      let adjusted := match r with                                 (* 180-185, checked *)
                      | Floor => prod
                      | Ceil => prod + (denominator - 1) end in
      if two512 <=? adjusted then Panic
      else
        let result := adjusted / denominator in                    (* 187-189 *)
        if U256_MAX <? result then Panic else Ok result.           (* 191-195 *)
