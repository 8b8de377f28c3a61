(** Model of contracts/src/utils/structs/checkpoints/mod.rs.

    Keys and values are unsigned integers of the width chosen by the [Size] parameter
    (S160: 96/160, S224: 32/224, S208: 48/208 bits, generic_size.rs:72-74); the code only
    compares keys and copies values, so the model uses [Z] for both and holds for every
    size.  The storage vector is a list; reading outside it is a Rust panic. *)
From Verif.Base Require Import Prelude.
From Verif.Model Require Import Math.
#[global] Open Scope Z_scope.

(** mod.rs:39-44 *)
Inductive error := CheckpointUnorderedInsertion.

(** mod.rs:52-67: [Trace { checkpoints: StorageVec<Checkpoint> }] *)
Definition trace := list (Z * Z).

Definition out (A : Type) := res error A.
Definition obind {A B} (r : out A) (k : A -> out B) : out B :=
  match r with Ok a => k a | Err e => Err e | Panic => Panic end.

(** mod.rs:202-204: [U256::from(self.checkpoints.len())] *)
Definition length (t : trace) : Z := Z.of_nat (List.length t).

(** mod.rs:339-343 [_index]: panics when out of bounds. *)
Definition _index (t : trace) (pos : Z) : out (Z * Z) :=
  if pos <? 0 then Panic
  else match nth_error t (Z.to_nat pos) with Some c => Ok c | None => Panic end.

(** mod.rs:280-295 [_upper_binary_lookup].  [fuel] bounds the number of iterations;
    running out of fuel (non-termination) is reported as a panic, and the theorems show
    it does not happen. *)
Fixpoint _upper_binary_lookup (fuel : nat) (t : trace) (key low high : Z) : out Z :=
  match fuel with
  | O => Panic
  | S fuel =>
      if low <? high then
        let mid := average low high in
        obind (_index t mid) (fun c =>
          if key <? fst c
          then _upper_binary_lookup fuel t key low mid
          else _upper_binary_lookup fuel t key (wadd mid 1) high)
      else Ok high
  end.

(** mod.rs:311-326 [_lower_binary_lookup] *)
Fixpoint _lower_binary_lookup (fuel : nat) (t : trace) (key low high : Z) : out Z :=
  match fuel with
  | O => Panic
  | S fuel =>
      if low <? high then
        let mid := average low high in
        obind (_index t mid) (fun c =>
          if fst c <? key
          then _lower_binary_lookup fuel t key (wadd mid 1) high
          else _lower_binary_lookup fuel t key low mid)
      else Ok high
  end.

Definition fuel_of (t : trace) : nat := S (List.length t).

(** mod.rs:103-111 *)
Definition lower_lookup (t : trace) (key : Z) : out Z :=
  let len := length t in
  obind (_lower_binary_lookup (fuel_of t) t key 0 len) (fun pos =>
    if pos =? len then Ok 0 else obind (_index t pos) (fun c => Ok (snd c))).

(** mod.rs:121-129 *)
Definition upper_lookup (t : trace) (key : Z) : out Z :=
  let len := length t in
  obind (_upper_binary_lookup (fuel_of t) t key 0 len) (fun pos =>
    if pos =? 0 then Ok 0 else obind (_index t (wsub pos 1)) (fun c => Ok (snd c))).

(** mod.rs:141-163 *)
Definition upper_lookup_recent (t : trace) (key : Z) : out Z :=
  let len := length t in
  let finish low high :=
    obind (_upper_binary_lookup (fuel_of t) t key low high) (fun pos =>
      if pos =? 0 then Ok 0 else obind (_index t (wsub pos 1)) (fun c => Ok (snd c))) in
  if 5 <? len then
    let mid := wsub len (sqrt len) in
    obind (_index t mid) (fun c =>
      if key <? fst c then finish 0 mid else finish (wadd mid 1) len)
  else finish 0 len.

(** mod.rs:171-178 *)
Definition latest (t : trace) : out Z :=
  let pos := length t in
  if pos =? 0 then Ok 0 else obind (_index t (wsub pos 1)) (fun c => Ok (snd c)).

(** mod.rs:187-195 *)
Definition latest_checkpoint (t : trace) : out (option (Z * Z)) :=
  let pos := length t in
  if pos =? 0 then Ok None else obind (_index t (wsub pos 1)) (fun c => Ok (Some c)).

(** mod.rs:216-221 *)
Definition at_ (t : trace) (pos : Z) : out (Z * Z) := _index t pos.

(** mod.rs:356-360 [_index_mut] followed by [value.set(value)]. *)
Definition set_value (t : trace) (pos : Z) (value : Z) : out trace :=
  obind (_index t pos) (fun c =>
    let n := Z.to_nat pos in
    Ok (firstn n t ++ (fst c, value) :: skipn (S n) t)).
(** mod.rs:369-373 [_unchecked_push] *)
Definition _unchecked_push (t : trace) (key value : Z) : trace := t ++ [(key, value)].

(** mod.rs:237-264 [_insert] (= [push], mod.rs:88-94).  Returns the previous and the new
    value together with the new trace. *)
Definition push (t : trace) (key value : Z) : out (Z * Z) * trace :=
  let pos := length t in
  if 0 <? pos then
    match _index t (wsub pos 1) with
    | Ok (last_key, last_value) =>
        if key <? last_key then (Err CheckpointUnorderedInsertion, t)
        else if last_key =? key then
          match set_value t (wsub pos 1) value with
          | Ok t' => (Ok (last_value, value), t')
          | Err e => (Err e, t)
          | Panic => (Panic, t)
          end
        else (Ok (last_value, value), _unchecked_push t key value)
    | Err e => (Err e, t)
    | Panic => (Panic, t)
    end
  else (Ok (0, value), _unchecked_push t key value).

(** A history of pushes. *)
Definition run (h : list (Z * Z)) (t : trace) : trace :=
  fold_left (fun t p => snd (push t (fst p) (snd p))) h t.
