(** Text, as the Unicode standard and RFC 3629 define it: a sequence of code points, none of
    them a surrogate, each written in one to four bytes. *)
From Verif.Base Require Import Prelude.
#[global] Open Scope Z_scope.

Definition scalar (c : Z) : Prop := 0 <= c < 0xD800 \/ 0xE000 <= c <= 0x10FFFF.
Definition utf8 (c : Z) : list Z :=
  if c <? 2 ^ 7 then [c]
  else if c <? 2 ^ 11 then [0xC0 + c / 2 ^ 6; 0x80 + c mod 2 ^ 6]
  else if c <? 2 ^ 16 then [0xE0 + c / 2 ^ 12; 0x80 + c / 2 ^ 6 mod 2 ^ 6; 0x80 + c mod 2 ^ 6]
  else [0xF0 + c / 2 ^ 18; 0x80 + c / 2 ^ 12 mod 2 ^ 6; 0x80 + c / 2 ^ 6 mod 2 ^ 6; 0x80 + c mod 2 ^ 6].
Definition text (d : list Z) : Prop := exists l, List.Forall scalar l /\ d = flat_map utf8 l.
