From Verif.Base Require Import Prelude Bytes.
From Coq Require Import List.
From Verif.Model Require Import Utf8.
From Verif.Spec Require Import Utf8_spec.
#[global] Open Scope Z_scope.
Import ListNotations.
Local Open Scope Z_scope.

Lemma utf8_bytes c : scalar c -> List.Forall is_byte (utf8 c).
Proof.
  unfold scalar, utf8. intros H. change (2 ^ 7) with 128. change (2 ^ 11) with 2048. change (2 ^ 16) with 65536.
  change (2 ^ 6) with 64. change (2 ^ 12) with 4096. change (2 ^ 18) with 262144.
  destruct (c <? 128) eqn:E1; [|destruct (c <? 2048) eqn:E2; [|destruct (c <? 65536) eqn:E3]];
    repeat apply List.Forall_cons; try apply List.Forall_nil; unfold is_byte; Z.to_euclidean_division_equations; lia.
Qed.
Lemma text_bytes d : text d -> List.Forall is_byte d.
Proof.
  intros (l & H & ->). induction H as [|c l Hc _ IH]; [constructor|]. cbn [flat_map]. apply List.Forall_app.
  split; [apply utf8_bytes, Hc|exact IH].
Qed.
Lemma text_app a b : text a -> text b -> text (a ++ b).
Proof.
  intros (l & Hl & ->) (k & Hk & ->). exists (l ++ k). split; [apply List.Forall_app; auto|]. rewrite flat_map_app. reflexivity.
Qed.
Lemma text_cons c d : scalar c -> text d -> text (utf8 c ++ d).
Proof. intros Hc (l & Hl & ->). exists (c :: l). split; [constructor; assumption|reflexivity]. Qed.
Lemma text_nil : text [].
Proof. exists []. split; [constructor|reflexivity]. Qed.
Ltac bools := repeat (rewrite ?orb_true_iff, ?andb_true_iff, ?Z.leb_le, ?Z.eqb_eq in * ).
(** A code point passes. *)
Lemma utf8_passes c d : scalar c -> from_utf8 (utf8 c ++ d) = from_utf8 d.
Proof.
  unfold scalar, utf8. intros H. change (2 ^ 7) with 128. change (2 ^ 11) with 2048. change (2 ^ 16) with 65536.
  change (2 ^ 6) with 64. change (2 ^ 12) with 4096. change (2 ^ 18) with 262144.
  destruct (c <? 128) eqn:E1; [|destruct (c <? 2048) eqn:E2; [|destruct (c <? 65536) eqn:E3]]; cbn [app from_utf8].
  - rewrite E1. reflexivity.
  - assert (B : 2 <= c / 64 <= 31 /\ 0 <= c mod 64 < 64) by (Z.to_euclidean_division_equations; lia).
    generalize dependent (c / 64). generalize dependent (c mod 64). clear. intros x y B.
    unfold continuation, between. replace (192 + y <? 128) with false by lia.
    replace ((194 <=? 192 + y) && (192 + y <=? 223)) with true by lia.
    replace ((128 <=? 128 + x) && (128 + x <=? 191)) with true by lia. reflexivity.
  - assert (B : 0 <= c / 4096 <= 15 /\ 0 <= c / 64 mod 64 < 64 /\ 0 <= c mod 64 < 64 /\
      (c / 4096 = 0 -> 32 <= c / 64 mod 64) /\ (c / 4096 = 13 -> c / 64 mod 64 < 32)) by (Z.to_euclidean_division_equations; lia).
    revert B. generalize (c / 4096), (c / 64 mod 64), (c mod 64). clear. intros x y z B.
    unfold continuation, second_of_three, between. replace (224 + x <? 128) with false by lia.
    replace ((194 <=? 224 + x) && (224 + x <=? 223)) with false by lia.
    replace ((224 <=? 224 + x) && (224 + x <=? 239)) with true by lia.
    replace ((128 <=? 128 + z) && (128 + z <=? 191)) with true by lia.
    match goal with |- ?a && true && _ = _ => replace a with true end; [reflexivity|]. symmetry. bools. lia.
  - assert (B : 0 <= c / 262144 <= 4 /\ 0 <= c / 4096 mod 64 < 64 /\ 0 <= c / 64 mod 64 < 64 /\ 0 <= c mod 64 < 64 /\
      (c / 262144 = 0 -> 16 <= c / 4096 mod 64) /\ (c / 262144 = 4 -> c / 4096 mod 64 < 16)) by (Z.to_euclidean_division_equations; lia).
    revert B. generalize (c / 262144), (c / 4096 mod 64), (c / 64 mod 64), (c mod 64). clear. intros x y z t B.
    unfold continuation, second_of_four, between. replace (240 + x <? 128) with false by lia.
    replace ((194 <=? 240 + x) && (240 + x <=? 223)) with false by lia.
    replace ((224 <=? 240 + x) && (240 + x <=? 239)) with false by lia.
    replace ((240 <=? 240 + x) && (240 + x <=? 244)) with true by lia.
    replace ((128 <=? 128 + z) && (128 + z <=? 191)) with true by lia.
    replace ((128 <=? 128 + t) && (128 + t <=? 191)) with true by lia.
    match goal with |- ?a && true && true && _ = _ => replace a with true end; [reflexivity|]. symmetry. bools. lia.
Qed.
Lemma text_passes d : text d -> from_utf8 d = true.
Proof.
  intros (l & H & ->). induction H as [|c l Hc _ IH]; [reflexivity|]. cbn [flat_map]. rewrite utf8_passes by exact Hc. exact IH.
Qed.
(** What passes is text. *)
Lemma two b0 b1 : between 0xC2 0xDF b0 = true -> continuation b1 = true ->
  exists c, scalar c /\ [b0; b1] = utf8 c.
Proof.
  unfold continuation, between. bools. intros H0 H1. exists ((b0 - 192) * 64 + (b1 - 128)). split; [unfold scalar; lia|].
  unfold utf8. change (2 ^ 7) with 128. change (2 ^ 11) with 2048. change (2 ^ 6) with 64.
  replace (_ <? 128) with false by lia. replace (_ <? 2048) with true by lia.
  f_equal; [|f_equal]; Z.to_euclidean_division_equations; lia.
Qed.
Lemma three b0 b1 b2 : between 0xE0 0xEF b0 = true -> second_of_three b0 b1 = true -> continuation b2 = true ->
  exists c, scalar c /\ [b0; b1; b2] = utf8 c.
Proof.
  unfold second_of_three, continuation, between. bools. intros H0 H1 H2.
  exists ((b0 - 224) * 4096 + (b1 - 128) * 64 + (b2 - 128)). split; [unfold scalar; lia|].
  unfold utf8. change (2 ^ 7) with 128. change (2 ^ 11) with 2048. change (2 ^ 16) with 65536. change (2 ^ 6) with 64. change (2 ^ 12) with 4096.
  replace (_ <? 128) with false by lia. replace (_ <? 2048) with false by lia. replace (_ <? 65536) with true by lia.
  assert (B : 128 <= b1 <= 191) by lia. clear H1.
  f_equal; [|f_equal; [|f_equal]]; Z.to_euclidean_division_equations; lia.
Qed.
Lemma four b0 b1 b2 b3 : between 0xF0 0xF4 b0 = true -> second_of_four b0 b1 = true -> continuation b2 = true -> continuation b3 = true ->
  exists c, scalar c /\ [b0; b1; b2; b3] = utf8 c.
Proof.
  unfold second_of_four, continuation, between. bools. intros H0 H1 H2 H3.
  exists ((b0 - 240) * 262144 + (b1 - 128) * 4096 + (b2 - 128) * 64 + (b3 - 128)). split; [unfold scalar; lia|].
  unfold utf8. change (2 ^ 7) with 128. change (2 ^ 11) with 2048. change (2 ^ 16) with 65536. change (2 ^ 6) with 64. change (2 ^ 12) with 4096.
  change (2 ^ 18) with 262144.
  replace (_ <? 128) with false by lia. replace (_ <? 2048) with false by lia. replace (_ <? 65536) with false by lia.
  assert (B : 128 <= b1 <= 191) by lia. clear H1.
  f_equal; [|f_equal; [|f_equal; [|f_equal]]]; Z.to_euclidean_division_equations; lia.
Qed.
Lemma passes_text_n n : forall d, (length d <= n)%nat -> List.Forall is_byte d -> from_utf8 d = true -> text d.
Proof.
  induction n as [|n IH]; intros [|b0 d1] L Hb; try (intros _; apply text_nil); [cbn in L; lia|]. cbn [length] in L.
  inversion Hb as [|? ? H0 Hb1]; subst. cbn [from_utf8]. destruct (b0 <? 128) eqn:E1.
  { intros H. change (b0 :: d1) with ([b0] ++ d1). replace [b0] with (utf8 b0) by (unfold utf8; change (2 ^ 7) with 128; rewrite E1; reflexivity).
    apply text_cons; [|apply IH; [lia|assumption|exact H]]. unfold is_byte in H0. unfold scalar. lia. }
  destruct (between 194 223 b0) eqn:E2.
  { destruct d1 as [|b1 d2]; [discriminate|]. rewrite andb_true_iff. intros [H1 H]. inversion Hb1; subst. cbn [length] in L.
    destruct (two b0 b1 E2 H1) as (c & Hc & E). change (b0 :: b1 :: d2) with ([b0; b1] ++ d2). rewrite E. apply text_cons; [exact Hc|].
    apply IH; [lia|assumption|exact H]. }
  destruct (between 224 239 b0) eqn:E3.
  { destruct d1 as [|b1 [|b2 d3]]; try discriminate. rewrite !andb_true_iff. intros [[H1 H2] H]. inversion Hb1 as [|? ? ? Hb2]; subst.
    inversion Hb2; subst. cbn [length] in L.
    destruct (three b0 b1 b2 E3 H1 H2) as (c & Hc & E). change (b0 :: b1 :: b2 :: d3) with ([b0; b1; b2] ++ d3). rewrite E.
    apply text_cons; [exact Hc|]. apply IH; [lia|assumption|exact H]. }
  destruct (between 240 244 b0) eqn:E4; [|discriminate].
  destruct d1 as [|b1 [|b2 [|b3 d4]]]; try discriminate. rewrite !andb_true_iff. intros [[[H1 H2] H3] H]. inversion Hb1 as [|? ? ? Hb2]; subst.
  inversion Hb2 as [|? ? ? Hb3]; subst. inversion Hb3; subst. cbn [length] in L.
  destruct (four b0 b1 b2 b3 E4 H1 H2 H3) as (c & Hc & E). change (b0 :: b1 :: b2 :: b3 :: d4) with ([b0; b1; b2; b3] ++ d4). rewrite E.
  apply text_cons; [exact Hc|]. apply IH; [lia|assumption|exact H].
Qed.
Lemma from_utf8_iff d : List.Forall is_byte d -> from_utf8 d = true <-> text d.
Proof. intros Hb. split; [apply (passes_text_n (length d) d (le_n _) Hb)|apply text_passes]. Qed.
Lemma cons_eq (x y : Z) l k : x :: l = y :: k -> x = y /\ l = k.
Proof. intros H. split; [exact (f_equal (hd 0) H)|exact (f_equal (@tl Z) H)]. Qed.
(** A text says one sequence of code points. *)
Lemma utf8_first c c' d d' : scalar c -> scalar c' -> utf8 c ++ d = utf8 c' ++ d' -> c = c' /\ d = d'.
Proof.
  unfold scalar, utf8. intros H H'. change (2 ^ 7) with 128. change (2 ^ 11) with 2048. change (2 ^ 16) with 65536.
  change (2 ^ 6) with 64. change (2 ^ 12) with 4096. change (2 ^ 18) with 262144.
  destruct (c <? 128) eqn:E1; [|destruct (c <? 2048) eqn:E2; [|destruct (c <? 65536) eqn:E3]];
  (destruct (c' <? 128) eqn:F1; [|destruct (c' <? 2048) eqn:F2; [|destruct (c' <? 65536) eqn:F3]]); cbn [app]; intros E;
  repeat match goal with H : _ :: _ = _ :: _ |- _ => apply cons_eq in H; destruct H end;
    first [split; [Z.to_euclidean_division_equations; lia|assumption] | exfalso; Z.to_euclidean_division_equations; lia].
Qed.
Lemma text_unique l k : List.Forall scalar l -> List.Forall scalar k -> flat_map utf8 l = flat_map utf8 k -> l = k.
Proof.
  intros Hl. revert k. induction Hl as [|c l Hc Hl IH]; intros k Hk E.
  - destruct k as [|c' k]; [reflexivity|]. cbn [flat_map] in E. exfalso. revert E. unfold utf8.
    repeat match goal with |- context [if ?b then _ else _] => destruct b end; discriminate.
  - destruct k as [|c' k]; cbn [flat_map] in E.
    + exfalso. revert E. unfold utf8. repeat match goal with |- context [if ?b then _ else _] => destruct b end; discriminate.
    + inversion Hk; subst. apply utf8_first in E; [|assumption..]. destruct E as [-> E]. f_equal. apply IH; assumption.
Qed.
