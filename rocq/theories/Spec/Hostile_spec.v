(** Contracts over an asset that need not be honest: what such an asset can do, and what is
    to be proved of the token that the contract itself keeps. *)
From Verif.Base Require Import Prelude Bytes.
From Verif.Model Require Erc20 SafeErc20 Erc20World Erc4626 Wrapper.
From Verif.Spec Require Import Erc20_spec World_spec.
Import SafeErc20 Erc20World.
#[global] Open Scope Z_scope.

Section evolution.
  Context {C E : Type} (exec : ext world -> C -> M world E unit) (allowed : C -> Prop) (this : Z).
  (** What can happen between two moments. Other contracts do anything to anything but the
      contract's own storage. Calls to the contract that fail have no effect. In a call that
      succeeds, the contracts called answer any bytes and meanwhile do anything that can
      happen, in particular call the contract again; from one call to the next they may behave
      differently. *)
  Inductive evolves : world -> world -> Prop :=
  | ev_elsewhere w w' : tok w' = tok w -> evs w' = evs w -> evolves w w'
  | ev_call x c w w' : allowed c -> self x = this ->
      (forall t k w1 d w2, raw_call x t k w1 = Some (d, w2) -> Forall is_byte d) ->
      (forall t k w1 d w2, raw_call x t k w1 = Some (d, w2) -> evolves w1 w2) ->
      exec x c w = (Ok tt, w') -> evolves w w'
  | ev_then w w1 w2 : evolves w w1 -> evolves w1 w2 -> evolves w w2.
End evolution.

(** Who calls the contract. *)
Definition vault_caller (c : Erc4626.call) : option Z :=
  match c with
  | Erc4626.VDeposit cl _ _ | Erc4626.VMint cl _ _ | Erc4626.VWithdraw cl _ _ _ | Erc4626.VRedeem cl _ _ _
  | Erc4626.Shares cl _ => Some cl
  | Erc4626.Asset _ _ => None
  end.
Definition wrapper_caller (c : Wrapper.call) : option Z :=
  match c with
  | Wrapper.DepositFor cl _ _ | Wrapper.WithdrawTo cl _ _ | Wrapper.Token cl _ => Some cl
  | Wrapper.Recover _ | Wrapper.Underlying _ _ => None
  end.
(** 256-bit amounts; the contract's own token is used through its public functions. *)
Definition vault_call (c : Erc4626.call) : Prop :=
  match c with
  | Erc4626.VDeposit _ v _ | Erc4626.VMint _ v _ | Erc4626.VWithdraw _ v _ _ | Erc4626.VRedeem _ v _ _ => is_u256 v
  | Erc4626.Shares _ o => Erc20.op_wf o /\ public_op o
  | Erc4626.Asset _ o => Erc20.op_wf o
  end.
Definition wrapper_call (c : Wrapper.call) : Prop :=
  match c with
  | Wrapper.DepositFor _ _ v | Wrapper.WithdrawTo _ _ v => is_u256 v
  | Wrapper.Recover _ => True
  | Wrapper.Token _ o => Erc20.op_wf o /\ public_op o
  | Wrapper.Underlying _ o => Erc20.op_wf o
  end.
(** Calls by anybody but [o]. *)
Definition vault_call_not_by (o : Z) (c : Erc4626.call) : Prop := vault_call c /\ vault_caller c <> Some o.
Definition wrapper_call_not_by (o : Z) (c : Wrapper.call) : Prop := wrapper_call c /\ wrapper_caller c <> Some o.

(** What all the accounts of [l] may still take from [o]. *)
Fixpoint sum_allowances (s : Erc20.state) (o : Z) (l : list Z) : Z :=
  match l with [] => 0 | sp :: l' => Erc20.allowance s o sp + sum_allowances s o l' end.
(** [o] is safe between two states of a token: it loses at most what the allowances it had
    given go down by. *)
Definition only_allowances_used (s s' : Erc20.state) (o : Z) : Prop :=
  (forall sp, Erc20.allowance s' o sp <= Erc20.allowance s o sp) /\
  forall l, (forall sp, Erc20.allowance s o sp <> 0 -> In sp l) ->
    Erc20.balance_of s o - Erc20.balance_of s' o <= sum_allowances s o l - sum_allowances s' o l.
