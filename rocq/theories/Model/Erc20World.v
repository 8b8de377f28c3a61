(** A world with two token ledgers: the ERC-20 asset contract and the token the modelled
    contract itself inherits (wrapper or vault shares), plus the vault's own events.
    Used by the ERC-20 wrapper and ERC-4626. *)
From Verif.Base Require Import Prelude Bytes.
From Verif.Model Require Erc20 SafeErc20.
Import SafeErc20.
#[global] Open Scope Z_scope.

(** Events of erc4626.rs:43-57. *)
Inductive vault_event :=
| Deposit (sender owner assets shares : Z)
| Withdraw (sender receiver owner assets shares : Z).

Record world := mkw {
  asset_st : Erc20.state;
  tok : Erc20.state;
  evs : list vault_event
}.
Definition winit : world := mkw Erc20.init Erc20.init [].
Definition set_asset (a : Erc20.state) (w : world) : world := mkw a (tok w) (evs w).
Definition set_tok (t : Erc20.state) (w : world) : world := mkw (asset_st w) t (evs w).
Definition log_ev (e : vault_event) (w : world) : world := mkw (asset_st w) (tok w) (evs w ++ [e]).

(** The honest token contract: the library's own Erc20 (erc20/mod.rs) called by [caller]. *)
Definition honest_call (caller : Z) (c : token_call) (u : Erc20.state)
    : option (list Z * Erc20.state) :=
  let out (r : res Erc20.error bool * Erc20.state) :=
    match r with
    | (Ok b, u') => Some (word (Z.b2z b), u')
    | _ => None
    end in
  match c with
  | CTransfer to v => out (Erc20.transfer caller to v u)
  | CTransferFrom f t v => out (Erc20.transfer_from caller f t v u)
  | CApprove sp v => out (Erc20.approve caller sp v u)
  | CAllowance o sp => Some (word (Erc20.allowance u o sp), u)
  | CBalanceOf a => Some (word (Erc20.balance_of u a), u)
  end.

(** Calls made by contract [this] when [asset] is an honest token. *)
Definition honest_ext (this asset : Z) : ext world :=
  mkext world this (fun a => a =? asset)
    (fun target c w =>
       if target =? asset then
         match honest_call this c (asset_st w) with
         | Some (d, u') => Some (d, set_asset u' w)
         | None => None
         end
       else Some ([], w)).

(** Run an operation of the inherited token. *)
Definition on_tok {E A} (m : M Erc20.state E A) : M world E A := zoom tok set_tok m.
Definition on_asset {E A} (m : M Erc20.state E A) : M world E A := zoom asset_st set_asset m.
