(** Specification vocabulary for BitMap and Checkpoints: statements about histories of
    API calls only. *)
From Verif.Base Require Import Prelude.
From Verif.Model Require BitMap Checkpoints.
#[global] Open Scope Z_scope.

(** *** BitMap *)
(** Index and requested value of an operation. *)
Definition bop (o : BitMap.op) : Z * bool :=
  match o with
  | BitMap.OSet i => (i, true)
  | BitMap.OUnset i => (i, false)
  | BitMap.OSetTo i v => (i, v)
  end.
(** What the last operation on index [i] asked for ([false] if none). *)
Definition last_bit (h : list BitMap.op) (i : Z) : bool :=
  fold_left (fun b o => if fst (bop o) =? i then snd (bop o) else b) h false.

(** *** Checkpoints *)
(** The pushes of a history that are accepted: those whose key is not below the key of
    the previously accepted one.  Chronological order. *)
Fixpoint accepted_from (last : option Z) (h : list (Z * Z)) : list (Z * Z) :=
  match h with
  | [] => []
  | (k, v) :: h' =>
      if match last with Some l => k <? l | None => false end
      then accepted_from last h'
      else (k, v) :: accepted_from (Some k) h'
  end.
Definition accepted (h : list (Z * Z)) : list (Z * Z) := accepted_from None h.

(** Value of the last pair of [l] whose key satisfies [p], if any. *)
Definition last_with (p : Z -> bool) (l : list (Z * Z)) : option Z :=
  fold_left (fun r c => if p (fst c) then Some (snd c) else r) l None.
(** Value of the pairs with the smallest key [>= k]: the last one pushed for it. *)
Definition first_from (k : Z) (l : list (Z * Z)) : option Z :=
  match find (fun c => k <=? fst c) l with
  | None => None
  | Some c => last_with (fun k' => k' =? fst c) l
  end.
Definition or_zero (o : option Z) : Z := match o with Some v => v | None => 0 end.

(** Keys strictly increasing. *)
Fixpoint increasing (l : list Z) : Prop :=
  match l with
  | [] => True
  | k :: l' => match l' with [] => True | k' :: _ => k < k' end /\ increasing l'
  end.

(** *** sqrt
    The same code as [Math.sqrt] (alloy.rs:48-157) read strictly: every addition,
    subtraction, multiplication and left shift that would leave the 256-bit range, and
    every division by zero, aborts with [None]. *)
Definition sguard (ok : bool) (v : Z) : option Z := if ok then Some v else None.
Definition in256 (v : Z) : option Z := sguard ((0 <=? v) && (v <? two256)) v.
Definition sdiv (a b : Z) : option Z := sguard (negb (b =? 0)) (a / b).
Definition ob {A B} (o : option A) (k : A -> option B) : option B :=
  match o with Some a => k a | None => None end.
Definition shift_strict (n : Z) (st : Z * Z) : option (Z * Z) :=
  let '(aa, xn) := st in
  ob (in256 (2 ^ n)) (fun b =>
  if b <=? aa then ob (in256 (xn * 2 ^ (n / 2))) (fun xn => Some (aa / 2 ^ n, xn))
  else Some (aa, xn)).
Definition newton_strict (a xn : Z) : option Z :=
  ob (sdiv a xn) (fun q => ob (in256 (xn + q)) (fun t => Some (t / 2))).
Definition refine_strict (a x : Z) : option Z :=
  ob (in256 (3 * x)) (fun x3 =>
  ob (newton_strict a (x3 / 2)) (fun xn =>
  ob (newton_strict a xn) (fun xn =>
  ob (newton_strict a xn) (fun xn =>
  ob (newton_strict a xn) (fun xn =>
  ob (newton_strict a xn) (fun xn =>
  ob (newton_strict a xn) (fun xn =>
  ob (sdiv a xn) (fun q => in256 (xn - (if q <? xn then 1 else 0)))))))))).
Definition sqrt_strict (a : Z) : option Z :=
  if a <=? 1 then Some a
  else
    ob (shift_strict 128 (a, 1)) (fun st => ob (shift_strict 64 st) (fun st =>
    ob (shift_strict 32 st) (fun st => ob (shift_strict 16 st) (fun st =>
    ob (shift_strict 8 st) (fun st => ob (shift_strict 4 st) (fun st =>
      let '(aa, xn) := st in
      ob (if 4 <=? aa then in256 (xn * 2) else Some xn) (refine_strict a))))))).
