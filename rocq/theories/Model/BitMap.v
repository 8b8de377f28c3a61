(** Model of contracts/src/utils/structs/bitmap.rs. *)
From Verif.Base Require Import Prelude Maps.
From stdpp Require Import gmap.
#[global] Open Scope Z_scope.

(** bitmap.rs:28-31: [data: StorageMap<U256, StorageU256>] *)
Record state := mk { data : gmap Z Z }.
Definition init : state := mk ∅.

(** bitmap.rs:92-94: [index >> 8] *)
Definition get_bucket (index : Z) : Z := Z.shiftr index 8.
(** bitmap.rs:87-89: [ONE << (index & HEX_FF)] *)
Definition get_mask (index : Z) : Z := wshl 1 (Z.land index 0xff).

(** bitmap.rs:40-45 *)
Definition get (s : state) (index : Z) : bool :=
  negb (Z.land (mget (data s) (get_bucket index)) (get_mask index) =? 0).
(** bitmap.rs:66-72 *)
Definition set (index : Z) (s : state) : state :=
  let bucket := get_bucket index in
  mk (mset (data s) bucket (Z.lor (mget (data s) bucket) (get_mask index))).
(** bitmap.rs:79-85; [!mask] is the 256-bit complement. *)
Definition unset (index : Z) (s : state) : state :=
  let bucket := get_bucket index in
  mk (mset (data s) bucket (Z.land (mget (data s) bucket) (U256_MAX - get_mask index))).
(** bitmap.rs:53-59 *)
Definition set_to (index : Z) (value : bool) (s : state) : state :=
  if value then set index s else unset index s.

(** The API as operations, for histories. *)
Inductive op := OSet (i : Z) | OUnset (i : Z) | OSetTo (i : Z) (v : bool).
Definition step (s : state) (o : op) : state :=
  match o with OSet i => set i s | OUnset i => unset i s | OSetTo i v => set_to i v s end.
Definition run (h : list op) (s : state) : state := fold_left step h s.
