(** Model of lib/crypto/src/poseidon2: the Poseidon2 permutation and sponge over an
    arbitrary field (the operations of [Model/Curve.v]). [None] stands for a panic. *)
From Coq Require Import ZArith List Bool.
From Verif Require Import Model.Uint Model.Curve.
Import ListNotations.

Section poseidon.
  Context (K : field_ops).
  Notation F := (F K). Notation "0" := (f0 K). Notation "1" := (f1 K).
  Notation "x + y" := (fadd K x y). Notation "x * y" := (fmul K x y).
  Notation double := (fdouble K). Notation square := (fsquare K).

  (** poseidon2/params.rs *)
  Record params := { T : nat; D : Z; CAPACITY : nat; ROUNDS_F : nat; ROUNDS_P : nat;
                     MAT_INTERNAL_DIAG_M_1 : list F; ROUND_CONSTANTS : list (list F) }.
  Context (P : params).

  (** field/mod.rs:128-157, bits.rs:18-22: exponentiation by the bits of a [u8] *)
  Fixpoint fpow_loop (x : F) (bits : list bool) (res : option F) : option F :=
    match bits with
    | [] => res
    | has_bit :: bits' =>
        let res := match res with Some r => Some (square r) | None => None end in
        let res := if has_bit : bool then match res with None => Some x | Some r => Some (r * x) end else res in
        fpow_loop x bits' res
    end.
  Definition fpow (x : F) (e : Z) : F :=
    match fpow_loop x (skip_zeros (bits_be 8 e)) None with Some r => r | None => 1 end.

  (** mod.rs:58-80 *)
  Definition partial_round_start : nat := Nat.div (ROUNDS_F P) 2.
  Definition partial_round_end : nat := (partial_round_start + ROUNDS_P P)%nat.
  Definition rounds : nat := (ROUNDS_F P + ROUNDS_P P)%nat.

  (** mod.rs:168-178 *)
  Definition apply_sbox_external (s : list F) : list F := map (fun x => fpow x (D P)) s.
  Definition apply_sbox_internal (s : list F) : option (list F) :=
    match s with [] => None | x :: s' => Some (fpow x (D P) :: s') end.

  (** mod.rs:226-259 *)
  Definition m4 (x0 x1 x2 x3 : F) : list F :=
    let t_0 := x0 + x1 in
    let t_1 := x2 + x3 in
    let t_2 := double x1 + t_1 in
    let t_3 := double x3 + t_0 in
    let t_4 := double (double t_1) + t_3 in
    let t_5 := double (double t_0) + t_2 in
    let t_6 := t_3 + t_5 in
    let t_7 := t_2 + t_4 in
    [t_6; t_5; t_7; t_4].
  Fixpoint matmul_m4 (s : list F) : list F :=
    match s with
    | x0 :: x1 :: x2 :: x3 :: s' => m4 x0 x1 x2 x3 ++ matmul_m4 s'
    | _ => s
    end.
  (** mod.rs:183-222 *)
  Definition stored (s : list F) (l : nat) : F :=
    fold_left (fun acc j => acc + nth (4 * j + l)%nat s 0) (seq 1 (Nat.div (T P) 4 - 1)%nat) (nth l s 0).
  Definition add_stored (s : list F) : list F :=
    map (fun i => nth i s 0 + stored s (Nat.modulo i 4)) (seq 0 (length s)).
  Definition matmul_external (s : list F) : option (list F) :=
    match T P with
    | 2%nat => match s with [x0; x1] => let sum := x0 + x1 in Some [x0 + sum; x1 + sum] | _ => None end
    | 3%nat => match s with
           | [x0; x1; x2] => let sum := x0 + x1 + x2 in Some [x0 + sum; x1 + sum; x2 + sum]
           | _ => None
           end
    | 4%nat => Some (matmul_m4 s)
    | 8%nat | 12%nat | 16%nat | 20%nat | 24%nat => Some (add_stored (matmul_m4 s))
    | _ => None
    end.
  (** mod.rs:263-298 *)
  Fixpoint mul_diag (s diag : list F) (sum : F) : option (list F) :=
    match s, diag with
    | [], _ => Some []
    | x :: s', d :: diag' => option_map (cons (x * d + sum)) (mul_diag s' diag' sum)
    | _ :: _, [] => None
    end.
  Definition matmul_internal (s : list F) : option (list F) :=
    match T P with
    | 2%nat => match s with [x0; x1] => let sum := x0 + x1 in Some [x0 + sum; double x1 + sum] | _ => None end
    | 3%nat => match s with
           | [x0; x1; x2] => let sum := x0 + x1 + x2 in Some [x0 + sum; x1 + sum; double x2 + sum]
           | _ => None
           end
    | 4%nat | 8%nat | 12%nat | 16%nat | 20%nat | 24%nat =>
        let sum := fold_left (fadd K) s 0 in mul_diag s (MAT_INTERNAL_DIAG_M_1 P) sum
    | _ => None
    end.
  (** mod.rs:302-314: the zip stops at the shorter of state and constants *)
  Fixpoint add_zip (s c : list F) : list F :=
    match s, c with x :: s', y :: c' => (x + y) :: add_zip s' c' | _, _ => s end.
  Definition add_rc_external (round : nat) (s : list F) : option (list F) :=
    option_map (add_zip s) (nth_error (ROUND_CONSTANTS P) round).
  Definition add_rc_internal (round : nat) (s : list F) : option (list F) :=
    match nth_error (ROUND_CONSTANTS P) round, s with
    | Some (c :: _), x :: s' => Some ((x + c) :: s')
    | _, _ => None
    end.

  Definition bind {A B} (x : option A) (f : A -> option B) : option B :=
    match x with Some a => f a | None => None end.
  (** mod.rs:132-144 *)
  Definition external_round (round : nat) (s : list F) : option (list F) :=
    bind (add_rc_external round s) (fun s => matmul_external (apply_sbox_external s)).
  Definition internal_round (round : nat) (s : list F) : option (list F) :=
    bind (add_rc_internal round s) (fun s => bind (apply_sbox_internal s) matmul_internal).
  (** [for round in a..b] *)
  Definition for_rounds (body : nat -> list F -> option (list F)) (a b : nat) (s : option (list F)) : option (list F) :=
    fold_left (fun s round => bind s (body round)) (seq a (b - a)%nat) s.
  (** mod.rs:110-128 *)
  Definition permute (s : list F) : option (list F) :=
    let s := matmul_external s in
    let s := for_rounds external_round 0 partial_round_start s in
    let s := for_rounds internal_round partial_round_start partial_round_end s in
    for_rounds external_round partial_round_end rounds s.

  (** mod.rs:29-34, 46-54 *)
  Record sponge := { state : list F; squeezing : bool; index : nat }.
  Definition new : sponge := {| state := repeat 0 (T P); squeezing := false; index := CAPACITY P |}.
  (** [self.state[i] += e] *)
  Fixpoint add_at (s : list F) (i : nat) (e : F) : option (list F) :=
    match s, i with
    | [], _ => None
    | x :: s', O => Some ((x + e) :: s')
    | x :: s', S i' => option_map (cons x) (add_at s' i' e)
    end.
  (** mod.rs:86-106 *)
  Definition absorb (h : sponge) (e : F) : option sponge :=
    if squeezing h then None else
    bind (if Nat.eqb (index h) (T P) then option_map (fun s => (s, CAPACITY P)) (permute (state h))
          else Some (state h, index h)) (fun '(s, i) =>
    option_map (fun s => {| state := s; squeezing := false; index := S i |}) (add_at s i e)).
  Fixpoint absorb_batch (h : sponge) (l : list F) : option sponge :=
    match l with [] => Some h | e :: l' => bind (absorb h e) (fun h => absorb_batch h l') end.
  (** mod.rs:148-164 *)
  Definition squeeze (h : sponge) : option (F * sponge) :=
    bind (if negb (squeezing h) || Nat.eqb (index h) (T P) then
            option_map (fun s => {| state := s; squeezing := true; index := CAPACITY P |}) (permute (state h))
          else Some h) (fun h =>
    option_map (fun e => (e, {| state := state h; squeezing := squeezing h; index := S (index h) |}))
      (nth_error (state h) (index h))).
  Fixpoint squeeze_batch (h : sponge) (n : nat) : option (list F * sponge) :=
    match n with
    | O => Some ([], h)
    | S n' => bind (squeeze h) (fun '(e, h) => option_map (fun '(l, h) => (e :: l, h)) (squeeze_batch h n'))
    end.
End poseidon.
