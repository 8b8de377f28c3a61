(** Model of [core::str::from_utf8] (library/core/src/str/validations.rs), by which
    alloy-sol-types decides whether the contents of a [string] are text. It is not part of the
    repository; the ranges are the ones of its [run_utf8_validation]. *)
From Verif.Base Require Import Prelude.
#[global] Open Scope Z_scope.

Definition between (a b x : Z) : bool := (a <=? x) && (x <=? b).
(** [next as i8 >= -64] is an error. *)
Definition continuation (b : Z) : bool := between 0x80 0xBF b.
(** What may follow the first byte of a sequence of three, and of four. *)
Definition second_of_three (b0 b1 : Z) : bool :=
  ((b0 =? 0xE0) && between 0xA0 0xBF b1) || (between 0xE1 0xEC b0 && between 0x80 0xBF b1) ||
  ((b0 =? 0xED) && between 0x80 0x9F b1) || (between 0xEE 0xEF b0 && between 0x80 0xBF b1).
Definition second_of_four (b0 b1 : Z) : bool :=
  ((b0 =? 0xF0) && between 0x90 0xBF b1) || (between 0xF1 0xF3 b0 && between 0x80 0xBF b1) ||
  ((b0 =? 0xF4) && between 0x80 0x8F b1).
Fixpoint from_utf8 (d : list Z) : bool :=
  match d with
  | [] => true
  | b0 :: d1 =>
      if b0 <? 128 then from_utf8 d1
      else if between 0xC2 0xDF b0 then
        match d1 with b1 :: d2 => continuation b1 && from_utf8 d2 | _ => false end
      else if between 0xE0 0xEF b0 then
        match d1 with b1 :: b2 :: d3 => second_of_three b0 b1 && continuation b2 && from_utf8 d3 | _ => false end
      else if between 0xF0 0xF4 b0 then
        match d1 with
        | b1 :: b2 :: b3 :: d4 => second_of_four b0 b1 && continuation b2 && continuation b3 && from_utf8 d4
        | _ => false
        end
      else false
  end.
