(** ERC-2981 royalties: property C51. *)
From Verif.Base Require Import Prelude Maps.
From Verif.Model Require Erc2981.
From Verif.Spec Require Import Erc2981_spec.
From stdpp Require Import gmap.
Import Erc2981.
#[global] Open Scope Z_scope.

Definition of_setting (x : setting) : royalty := match x with Some (r, f) => mkR r f | None => erased end.
Definition setting_ok (den : Z) (x : setting) : Prop :=
  match x with Some (r, f) => r <> 0 /\ 0 <= f <= den | None => True end.
Definition repr (den : Z) (s : state) (d : setting) (t : Z -> setting) : Prop :=
  fee_denominator s = den /\ default_royalty_info s = of_setting d /\
  (forall id, getd erased (token_royalty_info s) id = of_setting (t id)) /\
  setting_ok den d /\ forall id, setting_ok den (t id).
Lemma valid_iff den r f : valid den r f = true <-> f <= den /\ r <> 0.
Proof. unfold valid. rewrite andb_true_iff, negb_true_iff, Z.leb_le, Z.eqb_neq. tauto. Qed.
Lemma step_repr den s d t o :
  op_wf o -> repr den s d t ->
  repr den (snd (tx (exec o) s)) (default_after den [o] d) (fun id => token_after den id [o] (t id)).
Proof.
  intros Hw (Hd & Hs & Ht & Ho1 & Ho2). unfold tx, repr.
  destruct o as [r f| |i r f|i]; cbn [exec default_after token_after op_wf] in *.
  - unfold _set_default_royalty. mred. rewrite Hd.
    destruct (valid den r f) eqn:Hv.
    + apply valid_iff in Hv. destruct Hv. destruct (Z.ltb_spec den f); [lia|]. destruct (Z.eqb_spec r 0); [contradiction|].
      cbn. repeat split; auto; lia.
    + destruct (Z.ltb_spec den f); [cbn; auto|]. destruct (Z.eqb_spec r 0); [cbn; auto|].
      exfalso. assert (valid den r f = true) by (apply valid_iff; lia). congruence.
  - cbn. repeat split; auto.
  - unfold _set_token_royalty. mred. rewrite Hd.
    destruct (valid den r f) eqn:Hv.
    + apply valid_iff in Hv. destruct Hv. destruct (Z.ltb_spec den f); [lia|]. destruct (Z.eqb_spec r 0); [contradiction|].
      cbn. repeat split; auto; intros id.
      * rewrite getd_set. destruct (Z.eqb_spec i id); destruct (decide (i = id)); try congruence; cbn; auto.
      * destruct (Z.eqb_spec i id); cbn; auto.
    + assert (E : forall id, (i =? id) && false = false) by (intros; apply andb_false_r).
      destruct (Z.ltb_spec den f); [cbn; repeat split; auto; intros; rewrite E; auto|].
      destruct (Z.eqb_spec r 0); [cbn; repeat split; auto; intros; rewrite E; auto|].
      exfalso. assert (valid den r f = true) by (apply valid_iff; lia). congruence.
  - cbn. repeat split; auto; intros id.
    + rewrite getd_set. destruct (Z.eqb_spec i id); destruct (decide (i = id)); try congruence; cbn; auto.
    + destruct (Z.eqb_spec i id); cbn; auto.
Qed.
Lemma run_repr den h s d t :
  Forall op_wf h -> repr den s d t ->
  repr den (run h s) (default_after den h d) (fun id => token_after den id h (t id)).
Proof.
  revert s d t. induction h as [|o h IH]; intros s d t Hw HR; [exact HR|].
  inversion Hw as [|? ? Ho Hh]; subst. apply (step_repr den s d t o Ho) in HR. apply IH in HR; [|exact Hh].
  cbn [run]. destruct o; exact HR.
Qed.

(** After every history of settings, [royalty_info] returns the receiver in force and the
    rounded-down share of the price, which never exceeds the price; it fails only if the
    product overflows. *)
Theorem c51_royalty_info den h id price :
  0 < den -> Forall op_wf h -> is_u256 price ->
  let s := run h (deployed den) in
  let '(r, f) := effective den id h in
  0 <= f <= den /\
  (price * f < two256 -> royalty_info id price s = (Ok (r, price * f / den), s) /\ 0 <= price * f / den <= price) /\
  (two256 <= price * f -> royalty_info id price s = (Panic, s)).
Proof.
  intros Hden Hw Hp s. unfold is_u256 in Hp.
  assert (HR : repr den s (default_after den h None) (fun i => token_after den i h None)).
  { apply (run_repr den h (deployed den) None (fun _ => None) Hw). repeat split; intros; try apply getd_empty. }
  destruct HR as (Hd & Hdef & Ht & Ho1 & Ho2). specialize (Ht id). specialize (Ho2 id). cbn beta in Ht, Ho2.
  assert (E : forall r f, 0 <= f <= den ->
     (if receiver (getd erased (token_royalty_info s) id) =? 0
      then (receiver (default_royalty_info s), royalty_fraction (default_royalty_info s))
      else (receiver (getd erased (token_royalty_info s) id), royalty_fraction (getd erased (token_royalty_info s) id))) = (r, f) ->
     0 <= f <= den /\
     (price * f < two256 -> royalty_info id price s = (Ok (r, price * f / den), s) /\ 0 <= price * f / den <= price) /\
     (two256 <= price * f -> royalty_info id price s = (Panic, s))).
  { intros r f Hf E. unfold royalty_info. mred. rewrite E, Hd. mred.
    split; [exact Hf|]. split; intros Hlt.
    - destruct (Z.ltb_spec (price * f) two256); [|lia]. destruct (Z.eqb_spec den 0); [lia|].
      split; [reflexivity|]. split; [apply Z.div_pos; nia|]. apply Z.div_le_upper_bound; nia.
    - destruct (Z.ltb_spec (price * f) two256); [lia|reflexivity]. }
  unfold effective. rewrite Ht, Hdef in E.
  destruct (token_after den id h None) as [[r f]|]; cbn [of_setting receiver royalty_fraction setting_ok] in *.
  - apply E; [lia|]. destruct (Z.eqb_spec r 0); [lia|reflexivity].
  - destruct (default_after den h None) as [[r f]|]; cbn [of_setting receiver royalty_fraction erased setting_ok] in *;
      apply E; try lia; reflexivity.
Qed.
Print Assumptions c51_royalty_info.
(** The setters reject fractions above the denominator and zero receivers, without effect. *)
Theorem c51_setters_reject den h id r f :
  Forall op_wf h ->
  let s := run h (deployed den) in
  (den < f ->
     _set_default_royalty r f s = (Err (InvalidDefaultRoyalty f den), s) /\
     _set_token_royalty id r f s = (Err (InvalidTokenRoyalty id f den), s)) /\
  (f <= den -> r = 0 ->
     _set_default_royalty r f s = (Err (InvalidDefaultRoyaltyReceiver 0), s) /\
     _set_token_royalty id r f s = (Err (InvalidTokenRoyaltyReceiver id 0), s)).
Proof.
  intros Hw s.
  assert (Hd : fee_denominator s = den).
  { apply (run_repr den h (deployed den) None (fun _ => None) Hw). repeat split; intros; try apply getd_empty. }
  unfold _set_default_royalty, _set_token_royalty. mred. rewrite Hd.
  split; [intros Hf; replace (den <? f) with true by lia; auto|].
  intros Hf ->. replace (den <? f) with false by lia. auto.
Qed.
Print Assumptions c51_setters_reject.
(** As deployed without setting the denominator (it is not 10000 by default, contrary to the
    documentation), every query fails. *)
Theorem c51_unset_denominator_panics h id price :
  fst (royalty_info id price (run h (deployed 0))) = Panic.
Proof.
  assert (Hd : forall s, fee_denominator s = 0 -> fee_denominator (run h s) = 0).
  { induction h as [|o h IH]; intros s E; [exact E|]. cbn [run]. apply IH. unfold tx.
    destruct o; cbn [exec]; unfold _set_default_royalty, _set_token_royalty, _delete_default_royalty, _reset_token_royalty; mred;
      repeat (match goal with |- context [if ?b then _ else _] => destruct b end; mred); exact E. }
  unfold royalty_info. mred. rewrite (Hd (deployed 0) eq_refl).
  destruct (if receiver _ =? 0 then _ else _) as [r f]. mred. destruct (price * f <? two256); reflexivity.
Qed.
Print Assumptions c51_unset_denominator_panics.
Example c51_demo :
  let h := [SetDefault 7 500; SetToken 3 8 10000; SetToken 3 9 10001; SetToken 4 0 1; SetToken 5 6 1; ResetToken 5] in
  Forall op_wf h /\ effective 10000 3 h = (8, 10000) /\ effective 10000 4 h = (7, 500) /\ effective 10000 5 h = (7, 500) /\
  fst (royalty_info 3 999 (run h (deployed 10000))) = Ok (8, 999) /\
  fst (royalty_info 4 999 (run h (deployed 10000))) = Ok (7, 49) /\
  fst (royalty_info 3 (two256 - 1) (run h (deployed 10000))) = Panic.
Proof. split; [repeat constructor; cbn; lia|]. vm_compute. repeat split; reflexivity. Qed.
