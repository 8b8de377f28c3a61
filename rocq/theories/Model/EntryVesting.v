(** The deployed examples/vesting-wallet as a table of functions for the entry point of
    Model/Entry.v, with its [#[receive]], on a chain with native currency, a clock and a token:
    its calls to the token are bytes to the token's entry point, and money reaches it by calls
    without data. *)
From Verif.Base Require Import Prelude Bytes Maps.
From stdpp Require Import gmap.
From Coq Require Import String List.
From Verif.Model Require Import Introspection Router Entry EntryErc20 EntryVault.
From Verif.Model Require SolAbi Ownable Erc20 SafeErc20 Erc20World Vesting.
Import SolAbi Erc20World Vesting.
#[global] Open Scope Z_scope.
Local Open Scope string_scope.
Local Open Scope list_scope.
Local Open Scope Z_scope.

(** What the other accounts answer when they are called, with money or without. *)
Definition payees : Type := Z -> answer.

Section wallet.
  (** The wallet's address, the token's, and what the constructor writes
      (examples/vesting-wallet/src/constructor.sol). *)
  Context (this coin start duration : Z).
  Local Notation W := (Vesting.world Erc20World.world).
  Local Notation x := (bytes_ext this coin).
  (** A payee called with money and no data. Without the SDK's feature "reentrant" the wallet
      refuses to be called while it runs; Coin has no [#[receive]]. *)
  Definition payee (p : payees) (a : Z) : answer :=
    if (a =? this) || (a =? coin) then Reverted [] else p a.
  Definition on_paid (p : payees) : M W Vesting.error unit :=
    o <~ gets (fun w => Ownable.owner (own (wal w))) ;;
    match payee p o with Returned _ => ret tt | Reverted d => fail (CallbackReverted d) end.
  (** examples/vesting-wallet/src/lib.rs:14-21, finance/vesting_wallet.rs:351-472 *)
  Definition ExampleWallet (p : payees) : contract W Vesting.error :=
    mkContract _ _ Pub.VestingWalletExample
      [("VestingWallet", "owner", read1 (fun w => [Word (Ownable.owner (own (wal w)))]));
       ("VestingWallet", "transfer_ownership", do_w (fun c a => nothing (ownership c (Ownable.OTransferOwnership a))));
       ("VestingWallet", "renounce_ownership", do_0 (fun c => nothing (ownership c Ownable.ORenounce)));
       ("VestingWallet", "start", read1 (fun _ => [Word start]));
       ("VestingWallet", "duration", read1 (fun _ => [Word duration]));
       ("VestingWallet", "end", read1 (fun _ => [Word (end_ start duration)]));
       ("VestingWallet", "released_eth", read1 (fun w => [Word (released_eth w)]));
       ("VestingWallet", "released_erc20", read_w (fun t w => [Word (released_erc20 t w)]));
       ("VestingWallet", "releasable_eth", do_0 (fun _ => number (releasable_eth x start duration)));
       ("VestingWallet", "releasable_erc20", do_w (fun _ t => number (releasable_erc20 x start duration t)));
       ("VestingWallet", "release_eth", do_0 (fun _ => nothing (release_eth x start duration (on_paid p))));
       ("VestingWallet", "release_erc20", do_w (fun _ t => nothing (release_erc20 x start duration t)));
       ("VestingWallet", "vested_amount_eth", do_w (fun _ t => number (vested_amount_eth x start duration t)));
       ("VestingWallet", "vested_amount_erc20", do_ww (fun _ a t => number (vested_amount_erc20 x start duration a t)))]
      revert_vesting.

  (** A call that carries money, and what the account called answers. *)
  Definition paying (sender to value : Z) (a : answer) (w : W) : answer * W :=
    if Vesting.balance_of (nat_ w) sender <? value then (Reverted [], w)
    else match a with
         | Returned d => (Returned d, set_nat (send sender to value (nat_ w)) w)
         | Reverted d => (Reverted d, w)
         end.
  (** A call on that chain. A call of the wallet without data is handled by its [#[receive]]
      (lib.rs:17-20), which accepts; all else goes through the router. No function is
      [#[payable]]. *)
  Definition wallet_call (p : payees) (to sender value : Z) (input : list Z) (w : W) : answer * W :=
    if to =? this then
      match input with
      | [] => paying sender this value (Returned []) w
      | _ => entry (ExampleWallet p) sender value input w
      end
    else if to =? coin then
      let (a, u') := entry Coin sender value input (asset_st (toks w)) in (a, set_toks (set_asset u' (toks w)) w)
    else paying sender to value (p to) w.
  (** A history: calls, and time. *)
  Inductive happening := Called (p : payees) (to sender value : Z) (input : list Z) | Passed (seconds : Z).
  Definition wallet_step (w : W) (e : happening) : W :=
    match e with
    | Called p to sender value input => snd (wallet_call p to sender value input w)
    | Passed d => Vesting.mkw (wal w) (nat_ w) (now w + d) (toks w)
    end.
  Definition wallet_run (h : list happening) (w : W) : W := fold_left wallet_step h w.
  (** What anyone can see of the chain itself. *)
  Definition ether (w : W) (a : Z) : Z := Vesting.balance_of (nat_ w) a.
  Definition clock (w : W) : Z := now w.
End wallet.
(** The chain after the constructor: an owner, any distribution of the native currency with
    nothing for the wallet, any time. *)
Definition deployed (owner t : Z) (m : gmap Z Z) : Vesting.world Erc20World.world :=
  Vesting.mkw (mkwal (Ownable.mk owner []) 0 ∅ []) (mknat m []) t winit.
