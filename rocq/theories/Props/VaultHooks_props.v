(** C71: a vault over an asset with ERC-777 hooks, through which anybody may re-enter. *)
From Verif.Base Require Import Prelude Maps.
From Verif.Model Require Erc20 SafeErc20 Erc20World Erc4626 VaultHooks.
From Verif.Spec Require Import Erc20_spec World_spec Erc4626_spec VaultHooks_spec.
From Verif.Proofs Require Import Erc20_inv World_lemmas Erc4626_lemmas VaultHooks_lemmas.
Import SafeErc20 Erc20World Erc4626 VaultHooks.
#[global] Open Scope Z_scope.

Section vault.
  Context (this asset offset : Z) (Hthis : this <> 0) (Hoff : 0 <= offset < 256).
  Notation A1 := (assets1 this).
  Notation S1 := (shares1 offset).
  Notation rrun := (rrun this asset offset).

  (** After any history of calls, nested to any depth through the hooks, no further such
      calls lower the worth of a share. *)
  Theorem c71_share_price_never_falls : forall h h',
    Forall (erc777_wf this) h -> Forall (erc777_wf this) h' ->
    let w := rrun h winit in no_worse this offset w (rrun h' w).
  Proof.
    intros h h' Hh Hh' w. apply (good_run this asset offset Hthis Hoff h' Hh').
    apply (good_run this asset offset Hthis Hoff h Hh). apply (vinv_init this).
  Qed.

  (** The state in which a nested call runs is no worse than the one the outermost call
      found: what is redeemable for [s] shares never falls. *)
  Theorem c71_claims_never_fall : forall h h' s q q',
    Forall (erc777_wf this) h -> Forall (erc777_wf this) h' -> 0 <= s ->
    let w := rrun h winit in let w' := rrun h' w in
    is_floor (s * A1 w) (S1 w) q -> is_floor (s * A1 w') (S1 w') q' -> q <= q'.
  Proof.
    intros h h' s q q' Hh Hh' Hs w w' F F'. pose proof (c71_share_price_never_falls h h' Hh Hh') as L. cbv zeta in L.
    fold w in L. fold w' in L. unfold no_worse in L.
    destruct (good_run this asset offset Hthis Hoff h Hh winit (vinv_init this)) as [HI _]. fold w in HI.
    destruct (good_run this asset offset Hthis Hoff h' Hh' w HI) as [HI' _]. fold w' in HI'.
    pose proof (ok_pos this offset Hoff _ (vinv_ok this _ HI)) as [P1 P2].
    pose proof (ok_pos this offset Hoff _ (vinv_ok this _ HI')) as [P3 P4].
    clearbody w w'. destruct F as [F _]. destruct F' as [_ F'].
    assert (q * S1 w * S1 w' <= s * A1 w * S1 w') by (apply Z.mul_le_mono_nonneg_r; lia).
    assert (s * (A1 w * S1 w') <= s * (A1 w' * S1 w)) by (apply Z.mul_le_mono_nonneg_l; lia).
    assert (s * A1 w' * S1 w < (q' + 1) * S1 w' * S1 w) by (apply Z.mul_lt_mono_pos_r; lia).
    assert (H3 : q * (S1 w * S1 w') < (q' + 1) * (S1 w * S1 w')) by lia.
    apply Z.mul_lt_mono_pos_r in H3; [lia|]. apply Z.mul_pos_pos; assumption.
  Qed.

  (** And the vault can pay every claim. *)
  Theorem c71_claims_covered : forall h s q, Forall (erc777_wf this) h ->
    let w := rrun h winit in 0 <= s <= share_supply w -> is_floor (s * A1 w) (S1 w) q ->
    0 <= q <= asset_bal w this.
  Proof.
    intros h s q Hh w Hs F. destruct (good_run this asset offset Hthis Hoff h Hh winit (vinv_init this)) as [HI _].
    fold w in HI. pose proof (vinv_ok this _ HI) as Hok. pose proof (ok_pos this offset Hoff _ Hok) as [P1 P2]. split.
    - destruct F as [_ F]. assert (0 <= s * A1 w) by (apply Z.mul_nonneg_nonneg; lia). nia.
    - exact (redeem_covered this offset Hoff w s q Hok Hs F).
  Qed.
End vault.

(** Calls between two holders who put in 1000 each; third parties mint the asset. *)
Definition two_holders : list rcall :=
  map (fun c => RCall c [] [])
    [Asset 9 (Erc20.OMint 1 10000); Asset 9 (Erc20.OMint 2 10000);
     Asset 1 (Erc20.OApprove 100 10000); Asset 2 (Erc20.OApprove 100 10000);
     VDeposit 1 1000 1; VDeposit 2 1000 2].

Ltac one_wf := cbn; unfold Erc20.op_wf, is_u256, third_party_op; cbn; repeat split; try lia;
  first [left; exact I | right; eexists; eexists; reflexivity | exact I].
Ltac in_or_out := do 3 eexists; first [left; reflexivity | right; reflexivity | eexists; first [left; reflexivity | right; reflexivity]].
Ltac hooks_wf :=
  assert (two256 > 100000) by reflexivity;
  repeat match goal with
    | |- Forall _ [] => apply Forall_nil
    | |- Forall _ (_ :: _) => apply Forall_cons
    | |- any_wf _ _ => apply wf_any; [one_wf| |]
    | |- erc777_wf _ (RCall (Asset _ _) _ _) => apply wf_asset; [one_wf| |]
    | |- erc777_wf _ (RCall (Shares _ _) _ _) => apply wf_shares; one_wf
    | |- erc777_wf _ (RCall (VDeposit _ _ _) _ _) => apply wf_in; [in_or_out|one_wf|]
    | |- erc777_wf _ (RCall (VMint _ _ _) _ _) => apply wf_in; [in_or_out|one_wf|]
    | |- erc777_wf _ _ => apply wf_out; [in_or_out|one_wf|]
    end.

(** The order of the two steps matters, and so does the assumption on who is called: with a
    hook of a stranger after assets came in, ... *)
Theorem c71_hook_after_deposit_refuted :
  exists h r, Forall (any_wf 100) h /\ any_wf 100 r /\
    (exists c post, r = RCall c [] post) /\
    let w := rrun 100 200 0 h winit in ~ no_worse 100 0 w (rstep 100 200 0 w r).
Proof.
  exists two_holders, (RCall (VDeposit 1 1000 1) [] [RCall (VRedeem 1 1000 1 1) [] []]).
  split; [unfold two_holders; cbn [map]; hooks_wf|]. split; [hooks_wf|]. split; [eauto|].
  cbv zeta. unfold no_worse. vm_compute. intros H. apply H. reflexivity.
Qed.
(** ... or before assets go out, a share loses worth. *)
Theorem c71_hook_before_payout_refuted :
  exists h r, Forall (any_wf 100) h /\ any_wf 100 r /\
    (exists c pre, r = RCall c pre []) /\
    let w := rrun 100 200 0 h winit in ~ no_worse 100 0 w (rstep 100 200 0 w r).
Proof.
  exists two_holders, (RCall (VRedeem 1 500 1 1) [RCall (VRedeem 1 500 1 1) [] []] []).
  split; [unfold two_holders; cbn [map]; hooks_wf|]. split; [hooks_wf|]. split; [eauto|].
  cbv zeta. unfold no_worse. vm_compute. intros H. apply H. reflexivity.
Qed.
Print Assumptions c71_share_price_never_falls.
Print Assumptions c71_claims_never_fall.
Print Assumptions c71_claims_covered.
Print Assumptions c71_hook_after_deposit_refuted.
Print Assumptions c71_hook_before_payout_refuted.

(** A deposit from within whose hook the depositor donates and takes its other shares out
    at the higher price, to be minted new shares at the old price; and in whose redemption
    it deposits again. *)
Definition nested : rcall :=
  RCall (VDeposit 1 3000 1)
    [RCall (Asset 1 (Erc20.OTransfer 100 500)) [] [];
     RCall (VRedeem 1 600 3 1) [] [RCall (VMint 2 70 2) [] []; RCall (VWithdraw 1 10 1 1) [] []]] [].
Example c71_nonvacuous :
  let w := rrun 100 200 0 two_holders winit in let w' := rstep 100 200 0 w nested in
  Forall (erc777_wf 100) two_holders /\ erc777_wf 100 nested /\
  (asset_bal w 100, share_supply w) = (2000, 2000) /\
  (asset_bal w' 100, share_supply w', share_bal w' 1, share_bal w' 2) = (4829, 4462, 3392, 1070) /\
  length (evs w') = 6%nat.
Proof.
  cbv zeta. split; [unfold two_holders; cbn [map]; hooks_wf|]. split; [unfold nested; hooks_wf|].
  repeat split; vm_compute; reflexivity.
Qed.
