(** Specification vocabulary for ERC-4626 vaults. *)
From Verif.Base Require Import Prelude.
From Verif.Model Require Erc20 Erc20World Erc4626.
From Verif.Spec Require Import Erc20_spec World_spec.
Import Erc20World Erc4626.
#[global] Open Scope Z_scope.

(** Exact rounding of the rational n/d (d > 0). *)
Definition is_floor (n d q : Z) : Prop := q * d <= n < (q + 1) * d.
Definition is_ceil (n d q : Z) : Prop := (q - 1) * d < n <= q * d.

Section vault.
  Context (this asset offset : Z).
  (** Total assets and shares with the virtual amounts added: the exchange rate is
      [assets1 w / shares1 w] assets per share. *)
  Definition assets1 (w : world) : Z := asset_bal w this + 1.
  Definition shares1 (w : world) : Z := share_supply w + 10 ^ offset.
  (** Both fit 256 bits; otherwise every conversion panics. *)
  Definition in_range (w : world) : Prop := assets1 w < two256 /\ shares1 w < two256.

  (** Calls that can occur: 256-bit amounts; the vault does not call itself; shares are
      only used through the public token API; on the asset contract, anybody but the vault
      may do anything the asset's public API allows, and the asset may be minted. *)
  Definition call_wf (c : call) : Prop :=
    match c with
    | VDeposit cl a _ => cl <> this /\ is_u256 a
    | VMint cl s _ => cl <> this /\ is_u256 s
    | VWithdraw cl a _ _ => cl <> this /\ is_u256 a
    | VRedeem cl s _ _ => cl <> this /\ is_u256 s
    | Shares _ o => Erc20.op_wf o /\ public_op o
    | Asset cl o => cl <> this /\ Erc20.op_wf o /\ third_party_op o
    end.
  Definition reachable (w : world) : Prop :=
    exists h, Forall call_wf h /\ w = run (honest_ext this asset) asset offset h winit.

  (** Effects of a deposit of [a] assets by [cl] for [s] shares to [r]. *)
  Definition deposited (w w' : world) (cl r a s : Z) : Prop :=
    moved (asset_st w) (asset_st w') cl this a /\
    Erc20.allowance (asset_st w') cl this = allowance_after (asset_st w) cl this a /\
    other_allowances_same (asset_st w) (asset_st w') cl this /\
    (forall b, share_bal w' b = share_bal w b + delta b r s) /\
    share_supply w' = share_supply w + s /\ same_allowances (tok w) (tok w') /\
    Erc20.log (tok w') = Erc20.log (tok w) ++ [Erc20.Transfer 0 r s] /\
    evs w' = evs w ++ [Deposit cl r a s].

  (** What a deposit needs apart from the conversion. *)
  Definition deposit_pre (w : world) (cl r a s : Z) : Prop :=
    cl <> 0 /\ r <> 0 /\ a <= asset_bal w cl /\ can_take (asset_st w) cl this a /\ share_supply w + s < two256.

  (** Effects of [cl] withdrawing [a] assets to [r] against [s] shares of [o]. *)
  Definition withdrawn (w w' : world) (cl r o a s : Z) : Prop :=
    moved (asset_st w) (asset_st w') this r a /\ same_allowances (asset_st w) (asset_st w') /\
    (forall b, share_bal w' b = share_bal w b - delta b o s) /\
    share_supply w' = share_supply w - s /\
    Erc20.allowance (tok w') o cl =
      (if cl =? o then Erc20.allowance (tok w) o cl else allowance_after (tok w) o cl s) /\
    other_allowances_same (tok w) (tok w') o cl /\
    Erc20.log (tok w') = Erc20.log (tok w) ++ [Erc20.Transfer o 0 s] /\
    evs w' = evs w ++ [Withdraw cl r o a s].

  (** Who may take [s] shares of [o] out to [r]. *)
  Definition exit_pre (w : world) (cl r o s : Z) : Prop :=
    r <> 0 /\ o <> 0 /\ (cl = o \/ cl <> 0 /\ can_take (tok w) o cl s).
End vault.
