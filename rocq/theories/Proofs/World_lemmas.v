From Verif.Base Require Import Prelude Maps Bytes.
From Verif.Model Require Erc20 SafeErc20 Erc20World.
From Verif.Spec Require Import Erc20_spec World_spec.
From Verif.Proofs Require Import Erc20_inv Erc20_api Erc20_hist.
From stdpp Require Import gmap.
Import SafeErc20 Erc20World.
#[global] Open Scope Z_scope.

Lemma encodes_true_word : encodes_true (firstn 32 (word (Z.b2z true))) = true.
Proof. reflexivity. Qed.
Lemma firstn_word v : firstn 32 (word v) = word v.
Proof. apply firstn_all2. rewrite word_length. lia. Qed.
Lemma of_be_word v : is_u256 v -> of_be (word v) = v.
Proof. intros H. unfold word. rewrite of_be_be_bytes. apply Z.mod_small. exact H. Qed.

Lemma bal_u256 u a : Inv u -> is_u256 (Erc20.balance_of u a).
Proof. intros H. pose proof (bal_nonneg u H a). pose proof (bal_le_supply u H a). pose proof (inv_max u H). split; lia. Qed.

Lemma set_asset_same w : set_asset (asset_st w) w = w.
Proof. destruct w; reflexivity. Qed.

Section honest.
  Context (this asset : Z).
  Notation x := (honest_ext this asset).

  Lemma balance_of_honest a w : Inv (asset_st w) ->
    SafeErc20.balance_of x asset a w = Some (Erc20.balance_of (asset_st w) a).
  Proof.
    intros HI. unfold SafeErc20.balance_of. cbn [raw_call honest_ext]. rewrite Z.eqb_refl. cbn [honest_call].
    rewrite word_length. cbn [Nat.ltb Nat.leb]. rewrite firstn_word, of_be_word by (apply bal_u256; exact HI). reflexivity.
  Qed.

  Lemma safe_transfer_honest to v w : Inv (asset_st w) -> is_u256 v ->
    (this <> 0 /\ to <> 0 /\ v <= Erc20.balance_of (asset_st w) this /\
     exists u', safe_transfer x asset to v w = (Ok tt, set_asset u' w) /\ Inv u' /\
       moved (asset_st w) u' this to v /\ same_allowances (asset_st w) u') \/
    (~ (this <> 0 /\ to <> 0 /\ v <= Erc20.balance_of (asset_st w) this) /\
     safe_transfer x asset to v w = (Err (SafeErc20FailedOperation asset), w)).
  Proof.
    intros HI Hv. unfold safe_transfer, call_optional_return, limited_call.
    cbn [raw_call has_code honest_ext]. rewrite !Z.eqb_refl. cbn [negb honest_call]. unfold Erc20.transfer, bind.
    destruct (transfer__spec this to v (asset_st w) HI Hv) as
      [(H1 & H2 & H3 & u' & E & HI' & Hm & Ha & Hs & Hl)|(Hno & e & E & _)]; rewrite E; cbn [ret].
    - left. split; [exact H1|]. split; [exact H2|]. split; [exact H3|]. exists u'.
      split; [reflexivity|]. split; [exact HI'|]. split; [repeat split; assumption|exact Ha].
    - right. split; [exact Hno|reflexivity].
  Qed.

  Lemma safe_transfer_from_honest from v w : Inv (asset_st w) -> is_u256 v ->
    (this <> 0 /\ from <> 0 /\ v <= Erc20.balance_of (asset_st w) from /\ can_take (asset_st w) from this v /\
     exists u', safe_transfer_from x asset from this v w = (Ok tt, set_asset u' w) /\ Inv u' /\
       moved (asset_st w) u' from this v /\ Erc20.allowance u' from this = allowance_after (asset_st w) from this v /\
       other_allowances_same (asset_st w) u' from this) \/
    (~ (this <> 0 /\ from <> 0 /\ v <= Erc20.balance_of (asset_st w) from /\ can_take (asset_st w) from this v) /\
     safe_transfer_from x asset from this v w = (Err (SafeErc20FailedOperation asset), w)).
  Proof.
    intros HI Hv. unfold safe_transfer_from, call_optional_return, limited_call, can_take.
    cbn [raw_call has_code honest_ext]. rewrite !Z.eqb_refl. cbn [negb honest_call].
    destruct (transfer_from_spec (asset_st w) this from this v HI Hv) as (H1 & H2 & _).
    pose proof (inv_exec this (Erc20.OTransferFrom from this v) (asset_st w) HI Hv) as HI'. cbn [Erc20.exec] in HI'.
    unfold Erc20.ignore, bind in HI'.
    destruct (Erc20.transfer_from this from this v (asset_st w)) as [[b|e|] u'] eqn:E.
    - pose proof (transfer_from_ret _ _ _ _ _ _ _ E) as ->. left.
      destruct (proj1 H1 eq_refl) as (A1 & A2 & _ & A4 & A5). destruct (H2 u' eq_refl) as (B1 & B2 & B3 & B4 & B5).
      split; [exact A1|]. split; [exact A2|]. split; [exact A4|]. split; [exact A5|]. exists u'.
      split; [reflexivity|]. split; [exact HI'|]. split; [repeat split; assumption|]. split; assumption.
    - right. split; [|reflexivity]. intros (A1 & A2 & A3 & A4). cbn [fst] in H1. apply proj2 in H1.
      discriminate H1. repeat split; assumption.
    - right. split; [|reflexivity]. intros (A1 & A2 & A3 & A4). cbn [fst] in H1. apply proj2 in H1.
      discriminate H1. repeat split; assumption.
  Qed.
End honest.

(** Third parties cannot take the asset away from [this] as long as [this] approves nobody. *)
Definition approves_nobody (u : Erc20.state) (this : Z) : Prop := forall sp, Erc20.allowance u this sp = 0.

Lemma third_party_step this u c o :
  Inv u -> approves_nobody u this -> this <> 0 -> c <> this -> Erc20.op_wf o -> third_party_op o ->
  let u' := Erc20.step u (c, o) in
  Inv u' /\ approves_nobody u' this /\ Erc20.balance_of u this <= Erc20.balance_of u' this.
Proof.
  intros HI Ha H0 Hc Hw Ho u'. pose proof (inv_step u (c, o) HI Hw) as HI'. fold u' in HI'.
  split; [exact HI'|]. destruct Ho as [Hp|(a & v & ->)].
  - split.
    + intros sp. unfold u'. rewrite (allowance_step_public this sp c o u HI Hw Hp).
      2: { destruct o; try exact I. tauto. }
      unfold approves_nobody in Ha. rewrite !(Ha sp). change (0 =? U256_MAX) with false. cbv iota.
      destruct (is_ok (fst (tx (Erc20.exec c o) u))) eqn:Eok; [|reflexivity].
      destruct (taken_bounds this sp c o u HI Hw Hp Eok) as [T1 T2].
      destruct (Z.eq_dec (taken_by this sp c o) 0) as [->|Hn]; [reflexivity|]. specialize (T2 Hn). rewrite Ha in T2.
      destruct T2 as [T2|T2]; [discriminate T2|lia].
    + destruct (Z_lt_le_dec (Erc20.balance_of u' this) (Erc20.balance_of u this)) as [Hlt|]; [exfalso|assumption].
      destruct (debit_authorised this c o u HI Hw Hp H0 Hlt) as [[[? _]|[? _]]|[_ Hal]]; try contradiction.
      rewrite Ha in Hal. destruct Hal as [Hal|Hal]; [discriminate Hal|unfold u' in Hlt; lia].
  - unfold u', Erc20.step. cbn [fst snd Erc20.exec]. unfold Erc20.op_wf in Hw. cbn [Erc20.op_value] in Hw.
    destruct (mint_spec u a v HI Hw) as (M1 & M2 & M3). unfold tx.
    destruct (Erc20._mint a v u) as [[[]|e|] u1] eqn:E; cbn [snd]; [|split; [exact Ha|lia]|split; [exact Ha|lia]].
    destruct (M2 u1 eq_refl) as (B1 & B2 & B3 & B4 & B5). split.
    + intros sp. rewrite B4. apply Ha.
    + unfold is_u256 in Hw. destruct (Z.eq_dec this a) as [->|Hne]; [lia|]. rewrite B2 by exact Hne. lia.
Qed.

Lemma on_tok_tx {E A} (m : M Erc20.state E A) w :
  tx (on_tok m) w = (fst (tx m (tok w)), set_tok (snd (tx m (tok w))) w).
Proof. unfold on_tok, zoom, tx. destruct w as [u t ev]. cbn. destruct (m t) as [[a|e|] t']; reflexivity. Qed.

(** Public calls never increase the supply. *)
Lemma public_supply_le s c o : Inv s -> Erc20.op_wf o -> public_op o ->
  Erc20.total_supply (Erc20.step s (c, o)) <= Erc20.total_supply s.
Proof.
  intros HI Hw Hp. unfold Erc20.step, tx. cbn [fst snd].
  destruct (Erc20.exec c o s) as [[[]|e|] s'] eqn:E; cbn [snd]; try lia.
  destruct o; cbn in Hp; try contradiction; unfold Erc20.op_wf in Hw; cbn [Erc20.op_value] in Hw; unfold Erc20.exec in E.
  - apply ignore_ok in E. destruct E as [b E]. pose proof (transfer_ret _ _ _ _ _ _ E) as ->.
    destruct (transfer_spec s c to value HI Hw) as (_ & H & _). destruct (H s' E) as (_ & _ & H' & _). lia.
  - apply ignore_ok in E. destruct E as [b E]. pose proof (approve_ret _ _ _ _ _ _ E) as ->.
    destruct (approve_spec s c spender value) as (_ & H & _). destruct (H s' E) as (_ & H' & _). lia.
  - apply ignore_ok in E. destruct E as [b E]. pose proof (transfer_from_ret _ _ _ _ _ _ _ E) as ->.
    destruct (transfer_from_spec s c from to value HI Hw) as (_ & H & _). destruct (H s' E) as (_ & _ & _ & H' & _). lia.
  - destruct (burn_spec s c value HI Hw) as (_ & H & _). destruct (H s' E) as (_ & _ & H' & _). unfold is_u256 in Hw. lia.
  - destruct (burn_from_spec s c account value HI Hw) as (_ & H). destruct (H s' E) as (_ & _ & H' & _). unfold is_u256 in Hw. lia.
Qed.
