(** The deployed examples/erc20 and a contract that exposes the library's [Erc20] alone, as
    tables of functions for the entry point of Model/Entry.v. The tables say which model of a
    function stands for which Rust function; dispatch and codec are those of Entry.v. *)
From Verif.Base Require Import Prelude Bytes.
From Coq Require Import String List.
From Verif.Model Require Import Introspection Router Entry.
From Verif.Model Require SolAbi Erc20 Pausable Erc20Example SafeErc20.
Import SolAbi.
#[global] Open Scope Z_scope.
Local Open Scope string_scope.
Local Open Scope list_scope.
Local Open Scope Z_scope.

(** contracts/src/token/erc20/mod.rs:271-316, used by a contract with the ledger [get] *)
Definition erc20_bodies {S E} (get : S -> Erc20.state)
    (on : forall A, M Erc20.state Erc20.error A -> M S E A) : bodies S E :=
  [("Erc20", "total_supply", read1 (fun s => [Word (Erc20.total_supply (get s))]));
   ("Erc20", "balance_of", read_w (fun a s => [Word (Erc20.balance_of (get s) a)]));
   ("Erc20", "transfer", do_ww (fun c to v => flag (on _ (Erc20.transfer c to v))));
   ("Erc20", "allowance", read_ww (fun o sp s => [Word (Erc20.allowance (get s) o sp)]));
   ("Erc20", "approve", do_ww (fun c sp v => flag (on _ (Erc20.approve c sp v))));
   ("Erc20", "transfer_from", do_www (fun c f t v => flag (on _ (Erc20.transfer_from c f t v))))].

(** A contract with nothing but the base token. *)
Definition Token : contract Erc20.state Erc20.error :=
  mkContract _ _ [Pub.Erc20] (erc20_bodies (fun s => s) (fun _ m => m)) revert_erc20.

(** examples/erc20/src/lib.rs:41-124; [name] and [symbol] are written by the constructor
    (extensions/metadata.rs:62-74, utils/metadata.rs:16-34). *)
Section example.
  Context (name symbol : list Z).
  Definition Example20 : contract Erc20Example.state Erc20Example.error :=
    mkContract _ _ Pub.Erc20Example
      ([("Erc20Example", "decimals", read1 (fun _ => [Word 10]));
        ("Erc20Example", "burn", do_w (fun c v => nothing (Erc20Example.burn c v)));
        ("Erc20Example", "burn_from", do_ww (fun c a v => nothing (Erc20Example.burn_from c a v)));
        ("Erc20Example", "mint", do_ww (fun _ a v => nothing (Erc20Example.mint a v)));
        ("Erc20Example", "transfer", do_ww (fun c to v => flag (Erc20Example.transfer c to v)));
        ("Erc20Example", "transfer_from", do_www (fun c f t v => flag (Erc20Example.transfer_from c f t v)));
        ("Erc20Example", "supports_interface",
          read_w (fun id _ => [Word (of_bool (Introspection.Erc20Example (firstn 4 (word id))))]));
        ("Erc20Example", "pause", do_0 (fun c => nothing (Erc20Example.pause c)));
        ("Erc20Example", "unpause", do_0 (fun c => nothing (Erc20Example.unpause c)))] ++
       erc20_bodies Erc20Example.erc20 (@Erc20Example.on_erc20) ++
       [("Erc20Metadata", "name", read1 (fun _ => [Octets name]));
        ("Erc20Metadata", "symbol", read1 (fun _ => [Octets symbol]));
        ("Erc20Metadata", "decimals", read1 (fun _ => [Word 18]));
        ("Capped", "cap", read1 (fun s => [Word (Erc20Example.cap s)]));
        ("Pausable", "paused", read1 (fun s => [Word (of_bool (Pausable.paused (Erc20Example.pausable s)))]))])
      revert_erc20_example.
End example.

(** The calldata of the calls that the library makes to a token: the [sol!] interface of
    token/erc20/utils/safe_erc20.rs:81-89 ([abi_encode] puts the selector first) and the
    [sol_interface!] of token/erc20/interface.rs:11-21. *)
Definition solidity_call (name : string) (ts : list abi_type) (args : list Z) : list Z :=
  be_bytes 4 (function_selector name ts) ++ abi_params (map Word args).
Definition call_data (c : SafeErc20.token_call) : list Z :=
  match c with
  | SafeErc20.CTransfer to v => solidity_call "transfer" [Address; U256] [to; v]
  | SafeErc20.CTransferFrom f t v => solidity_call "transferFrom" [Address; Address; U256] [f; t; v]
  | SafeErc20.CApprove sp v => solidity_call "approve" [Address; U256] [sp; v]
  | SafeErc20.CAllowance o sp => solidity_call "allowance" [Address; Address] [o; sp]
  | SafeErc20.CBalanceOf a => solidity_call "balanceOf" [Address] [a]
  end.
