(** The deployed examples/erc4626 and examples/erc20-wrapper as tables of functions for the
    entry point of Model/Entry.v, on a chain with the token they hold: their calls to the token
    are bytes to its entry point, and what it answers is bytes. *)
From Verif.Base Require Import Prelude Bytes.
From Coq Require Import String List.
From Verif.Model Require Import Introspection Router Entry EntryErc20.
From Verif.Model Require SolAbi Erc20 SafeErc20 Erc20World Wrapper Erc4626.
Import SolAbi SafeErc20 Erc20World.
#[global] Open Scope Z_scope.
Local Open Scope string_scope.
Local Open Scope list_scope.
Local Open Scope Z_scope.

(** A token written with the library: the inherited [Erc20] and a public [mint], like that of
    examples/erc20-permit/src/lib.rs:38-45. *)
Definition Coin : contract Erc20.state Erc20.error :=
  mkContract _ _ [Block "Coin" [fn "mint" [Address; U256]]; Pub.Erc20]
    (("Coin", "mint", do_ww (fun _ a v => nothing (Erc20._mint a v))) :: erc20_bodies (fun s => s) (fun _ m => m))
    revert_erc20.

(** Calls of a contract at [this] on a chain where only [coin] is a contract it calls: bytes to
    Coin's entry point without value. *)
Definition bytes_ext (this coin : Z) : ext world :=
  mkext world this (fun a => a =? coin)
    (fun target c w =>
       if target =? coin then
         match entry Coin this 0 (call_data c) (asset_st w) with
         | (Returned d, u') => Some (d, set_asset u' w)
         | (Reverted _, _) => None
         end
       else Some ([], w)).

(** A chain with a contract [C] at [this] and Coin at [coin]; other addresses have no code. *)
Definition chain_call {E} (C : contract world E) (this coin : Z) (to sender value : Z) (input : list Z) (w : world) : answer * world :=
  if to =? this then entry C sender value input w
  else if to =? coin then let (a, u') := entry Coin sender value input (asset_st w) in (a, set_asset u' w)
  else (Returned [], w).
(** A history: the address called, the sender, the value and the calldata. *)
Definition chain_run {E} (C : contract world E) (this coin : Z) (h : list (Z * (Z * Z * list Z))) (w : world) : world :=
  fold_left (fun w x => snd (chain_call C this coin (fst x) (fst (fst (snd x))) (snd (fst (snd x))) (snd (snd x)) w)) h w.

Section vault.
  (** Name and symbol, the vault's address, its asset, the decimals offset and the asset's
      decimals, as written by the constructor (examples/erc4626/src/constructor.sol). *)
  Context (name symbol : list Z) (this coin offset udec : Z).
  Local Notation x := (bytes_ext this coin).
  Definition number {S E} (m : M S E Z) : M S E (list val) := v <~ m ;; ret [Word v].
  (** examples/erc4626/src/lib.rs:33-115 *)
  Definition ExampleVault : contract world Erc4626.error :=
    mkContract _ _ Pub.Erc4626Example
      ([("Erc4626Example", "decimals", do_0 (fun _ => match Erc4626.decimals udec offset with Some d => ret [Word d] | None => panic end));
        ("Erc4626Example", "asset", read1 (fun _ => [Word coin]));
        ("Erc4626Example", "total_assets", do_0 (fun _ => number (Erc4626.total_assets x coin)));
        ("Erc4626Example", "convert_to_shares", do_w (fun _ a => number (Erc4626.convert_to_shares x coin offset a)));
        ("Erc4626Example", "convert_to_assets", do_w (fun _ s => number (Erc4626.convert_to_assets x coin offset s)));
        ("Erc4626Example", "max_deposit", read_w (fun r _ => [Word (Erc4626.max_deposit r)]));
        ("Erc4626Example", "preview_deposit", do_w (fun _ a => number (Erc4626.preview_deposit x coin offset a)));
        ("Erc4626Example", "deposit", do_ww (fun c a r => number (Erc4626.deposit x coin offset c a r)));
        ("Erc4626Example", "max_mint", read_w (fun r _ => [Word (Erc4626.max_mint r)]));
        ("Erc4626Example", "preview_mint", do_w (fun _ s => number (Erc4626.preview_mint x coin offset s)));
        ("Erc4626Example", "mint", do_ww (fun c s r => number (Erc4626.mint x coin offset c s r)));
        ("Erc4626Example", "max_withdraw", do_w (fun _ o => number (Erc4626.max_withdraw x coin offset o)));
        ("Erc4626Example", "preview_withdraw", do_w (fun _ a => number (Erc4626.preview_withdraw x coin offset a)));
        ("Erc4626Example", "withdraw", do_www (fun c a r o => number (Erc4626.withdraw x coin offset c a r o)));
        ("Erc4626Example", "max_redeem", read_w (fun o w => [Word (Erc4626.max_redeem o w)]));
        ("Erc4626Example", "preview_redeem", do_w (fun _ s => number (Erc4626.preview_redeem x coin offset s)));
        ("Erc4626Example", "redeem", do_www (fun c s r o => number (Erc4626.redeem x coin offset c s r o)))] ++
       erc20_bodies tok (fun _ m => map_err Erc4626.ErrErc20 (on_tok m)) ++
       [("Erc20Metadata", "name", read1 (fun _ => [Octets name]));
        ("Erc20Metadata", "symbol", read1 (fun _ => [Octets symbol]));
        ("Erc20Metadata", "decimals", read1 (fun _ => [Word 18]))])
      revert_erc4626.
  (** examples/erc20-wrapper/src/lib.rs:22-48; [udec] is the decimals the constructor stores. *)
  Definition ExampleWrapper : contract world Wrapper.error :=
    mkContract _ _ Pub.Erc20WrapperExample
      ([("Erc20WrapperExample", "underlying", read1 (fun _ => [Word coin]));
        ("Erc20WrapperExample", "decimals", read1 (fun _ => [Word udec]));
        ("Erc20WrapperExample", "deposit_for", do_ww (fun c a v => flag (Wrapper.deposit_for x coin c a v)));
        ("Erc20WrapperExample", "withdraw_to", do_ww (fun c a v => flag (Wrapper.withdraw_to x coin c a v)))] ++
       erc20_bodies tok (fun _ m => map_err Wrapper.ErrErc20 (on_tok m)))
      revert_wrapper.
End vault.
