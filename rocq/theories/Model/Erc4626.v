(** Model of contracts/src/token/erc20/extensions/erc4626.rs. *)
From Verif.Base Require Import Prelude.
From Verif.Model Require Erc20 SafeErc20 Erc20World Math.
Import SafeErc20 Erc20World Math.
#[global] Open Scope Z_scope.

(** erc4626.rs:111-131 *)
Inductive error :=
| ExceededMaxDeposit (receiver assets max : Z)
| ExceededMaxMint (receiver shares max : Z)
| ExceededMaxWithdraw (owner assets max : Z)
| ExceededMaxRedeem (owner shares max : Z)
| InvalidAsset (asset : Z)
| ErrSafeErc20 (e : SafeErc20.error)
| ErrErc20 (e : Erc20.error).

Section with_ext.
  (** The external world, and the storage words of [Erc4626] (erc4626.rs:140-150), which no
      function writes. *)
  Context (x : ext world) (asset : Z) (offset : Z).

  (** erc4626.rs:820-826 *)
  Definition total_assets : M world error Z :=
    fun w => match balance_of x asset (self x) w with
             | Some b => (Ok b, w)
             | None => (Err (InvalidAsset asset), w)
             end.

  (** [TEN.checked_pow(decimals_offset).expect(..)] *)
  Definition virtual_shares : M world error Z :=
    if 10 ^ offset <? two256 then ret (10 ^ offset) else panic.

  (** erc4626.rs:1037-1061 *)
  Definition _convert_to_shares (assets : Z) (r : rounding) : M world error Z :=
    total_supply <~ gets (fun w => Erc20.total_supply (tok w)) ;;
    ten <~ virtual_shares ;;
    multiplier <~ cadd total_supply ten ;;
    ta <~ total_assets ;;
    denominator <~ cadd ta 1 ;;
    lift_res (mul_div assets multiplier denominator r).

  (** erc4626.rs:1082-1106 *)
  Definition _convert_to_assets (shares : Z) (r : rounding) : M world error Z :=
    ta <~ total_assets ;;
    multiplier <~ cadd ta 1 ;;
    total_supply <~ gets (fun w => Erc20.total_supply (tok w)) ;;
    ten <~ virtual_shares ;;
    denominator <~ cadd total_supply ten ;;
    lift_res (mul_div shares multiplier denominator r).

  (** erc4626.rs:828-842 *)
  Definition convert_to_shares (assets : Z) := _convert_to_shares assets Floor.
  Definition convert_to_assets (shares : Z) := _convert_to_assets shares Floor.
  (** erc4626.rs:844-863 *)
  Definition max_deposit (receiver : Z) : Z := U256_MAX.
  Definition max_mint (receiver : Z) : Z := U256_MAX.
  Definition max_withdraw (owner : Z) : M world error Z :=
    balance <~ gets (fun w => Erc20.balance_of (tok w) owner) ;;
    _convert_to_assets balance Floor.
  Definition max_redeem (owner : Z) (w : world) : Z := Erc20.balance_of (tok w) owner.
  (** erc4626.rs:865-895 *)
  Definition preview_deposit (assets : Z) := _convert_to_shares assets Floor.
  Definition preview_mint (shares : Z) := _convert_to_assets shares Ceil.
  Definition preview_withdraw (assets : Z) := _convert_to_shares assets Ceil.
  Definition preview_redeem (shares : Z) := _convert_to_assets shares Floor.

  (** erc4626.rs:1127-1156 *)
  Definition _deposit (caller receiver assets shares : Z) : M world error unit :=
    map_err ErrSafeErc20 (safe_transfer_from x asset caller (self x) assets) ;;;
    map_err ErrErc20 (on_tok (Erc20._mint receiver shares)) ;;;
    modify (log_ev (Deposit caller receiver assets shares)).

  (** erc4626.rs:1179-1212 *)
  Definition _withdraw (caller receiver owner assets shares : Z) : M world error unit :=
    (if negb (caller =? owner)
     then map_err ErrErc20 (on_tok (Erc20._spend_allowance owner caller shares))
     else ret tt) ;;;
    map_err ErrErc20 (on_tok (Erc20._burn owner shares)) ;;;
    map_err ErrSafeErc20 (safe_transfer x asset receiver assets) ;;;
    modify (log_ev (Withdraw caller receiver owner assets shares)).

  (** erc4626.rs:897-918; [caller] is msg::sender(). *)
  Definition deposit (caller assets receiver : Z) : M world error Z :=
    fail_if (max_deposit receiver <? assets)
      (ExceededMaxDeposit receiver assets (max_deposit receiver)) ;;;
    shares <~ preview_deposit assets ;;
    _deposit caller receiver assets shares ;;;
    ret shares.
  (** erc4626.rs:920-940 *)
  Definition mint (caller shares receiver : Z) : M world error Z :=
    fail_if (max_mint receiver <? shares)
      (ExceededMaxMint receiver shares (max_mint receiver)) ;;;
    assets <~ preview_mint shares ;;
    _deposit caller receiver assets shares ;;;
    ret assets.
  (** erc4626.rs:942-961 *)
  Definition withdraw (caller assets receiver owner : Z) : M world error Z :=
    max_assets <~ max_withdraw owner ;;
    fail_if (max_assets <? assets) (ExceededMaxWithdraw owner assets max_assets) ;;;
    shares <~ preview_withdraw assets ;;
    _withdraw caller receiver owner assets shares ;;;
    ret shares.
  (** erc4626.rs:963-985 *)
  Definition redeem (caller shares receiver owner : Z) : M world error Z :=
    max_shares <~ gets (max_redeem owner) ;;
    fail_if (max_shares <? shares) (ExceededMaxRedeem owner shares max_shares) ;;;
    assets <~ preview_redeem shares ;;
    _withdraw caller receiver owner assets shares ;;;
    ret assets.
End with_ext.

(** erc4626.rs:1011-1016; [None] is the panic. *)
Definition decimals (underlying_decimals offset : Z) : option Z :=
  if underlying_decimals + offset <? 256 then Some (underlying_decimals + offset) else None.

(** Calls on the two-contract system. *)
Inductive call :=
| VDeposit (caller assets receiver : Z)
| VMint (caller shares receiver : Z)
| VWithdraw (caller assets receiver owner : Z)
| VRedeem (caller shares receiver owner : Z)
| Shares (caller : Z) (o : Erc20.op)
| Asset (caller : Z) (o : Erc20.op).

Definition exec (x : ext world) (asset offset : Z) (c : call) : M world error unit :=
  match c with
  | VDeposit cl a r => Erc20.ignore (deposit x asset offset cl a r)
  | VMint cl s r => Erc20.ignore (mint x asset offset cl s r)
  | VWithdraw cl a r o => Erc20.ignore (withdraw x asset offset cl a r o)
  | VRedeem cl s r o => Erc20.ignore (redeem x asset offset cl s r o)
  | Shares cl o => map_err ErrErc20 (on_tok (Erc20.exec cl o))
  | Asset cl o => map_err ErrErc20 (on_asset (Erc20.exec cl o))
  end.
Definition step (x : ext world) (asset offset : Z) (w : world) (c : call) : world :=
  snd (tx (exec x asset offset c) w).
Definition run (x : ext world) (asset offset : Z) (h : list call) (w : world) : world :=
  fold_left (step x asset offset) h w.
