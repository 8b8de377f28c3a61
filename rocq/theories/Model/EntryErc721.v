(** The deployed examples/erc721 as a table of functions for the entry point of Model/Entry.v,
    with the call that safe transfers make to the receiver.

    The calls go out to a world that answers: which addresses hold code, and what a contract
    returns or reverts with for given calldata. The world may be another one for each call.
    The contract is built without the [reentrant] feature (Cargo.toml), so the SDK refuses
    calls back into it: a receiver can only answer. *)
From Verif.Base Require Import Prelude Bytes.
From Coq Require Import String List.
From Verif.Model Require Import Introspection Router Entry.
From Verif.Model Require SolAbi Erc721 Enumerable Pausable Erc721Example.
Import SolAbi.
#[global] Open Scope Z_scope.
Local Open Scope string_scope.
Local Open Scope list_scope.
Local Open Scope Z_scope.

Record world := mkWorld { deployed : Z -> bool; replies : Z -> list Z -> answer }.

(** token/erc721/receiver.rs:9-40: the [sol_interface!] of the receiver; the arguments are those
    of mod.rs:1006-1014. *)
Definition hook_data (operator from token_id : Z) (data : list Z) : list Z :=
  be_bytes 4 (function_selector "onERC721Received" [Address; Address; U256; Bytes]) ++
  abi_params [Word operator; Word from; Word token_id; Octets data].
(** mod.rs:1016-1035: the returned data are decoded as [bytes4] (by [abi_decode_params(.., true)],
    in code generated by the SDK); data that do not decode make the call fail without a reason. *)
Definition reply_of (a : answer) : Erc721.reply :=
  match a with
  | Returned d => match decode_params [FixedBytes4] d with
                  | Some [Word v] => Erc721.Returned (v / 2 ^ 224)
                  | _ => Erc721.Failed []
                  end
  | Reverted d => Erc721.Failed d
  end.

(** examples/erc721/src/lib.rs:19-24: [#[derive(SolidityError)]] *)
Definition revert_erc721_example (e : Erc721Example.error) : list Z :=
  match e with
  | Erc721Example.EnumerableError e => revert_enumerable e
  | Erc721Example.Erc721Error e => revert_erc721 e
  | Erc721Example.PausableError e => revert_pausable e
  end.

(** More shapes of bodies. *)
Definition ask_w {S E} (f : Z -> M S E Z) : body S E :=
  fun args _ => match args with [Word a] => v <~ f a ;; ret [Word v] | _ => panic end.
Definition ask_ww {S E} (f : Z -> Z -> M S E Z) : body S E :=
  fun args _ => match args with [Word a; Word b] => v <~ f a b ;; ret [Word v] | _ => panic end.
Definition do_wwo {S E} (f : Z -> Z -> Z -> list Z -> M S E (list val)) : body S E :=
  fun args c => match args with [Word a; Word b; Octets d] => f c a b d | _ => panic end.
Definition do_wwwo {S E} (f : Z -> Z -> Z -> Z -> list Z -> M S E (list val)) : body S E :=
  fun args c => match args with [Word a; Word b; Word d; Octets o] => f c a b d o | _ => panic end.

Section example.
  Context (w : world).
  (** What the receiver answers to the hook. *)
  Definition hook (caller from to token_id : Z) (data : list Z) : Erc721.reply :=
    reply_of (replies w to (hook_data caller from token_id data)).
  Definition on_enumerable {A} (m : Enumerable.state -> res Enumerable.error A) : M Erc721Example.state Erc721Example.error A :=
    fun s => (match m (Erc721Example.enumerable s) with
              | Ok a => Ok a
              | Err e => Err (Erc721Example.EnumerableError e)
              | Panic => Panic
              end, s).
  (** examples/erc721/src/lib.rs:38-198; what is not overridden there comes from
      token/erc721/mod.rs:409-491, extensions/enumerable.rs:138-165 and utils/pausable.rs. *)
  Definition Example721 : contract Erc721Example.state Erc721Example.error :=
    mkContract _ _ Pub.Erc721Example
      [("Erc721Example", "burn", do_w (fun c i => nothing (Erc721Example.burn c i)));
       ("Erc721Example", "mint", do_ww (fun _ t i => nothing (Erc721Example.mint t i)));
       ("Erc721Example", "safe_mint", do_wwo (fun c t i d =>
          nothing (Erc721Example.safe_mint (deployed w) c t i d (hook c 0 t i d))));
       ("Erc721Example", "safe_transfer_from", do_www (fun c f t i =>
          nothing (Erc721Example.safe_transfer_from_with_data (deployed w) c f t i [] (hook c f t i []))));
       ("Erc721Example", "safe_transfer_from_with_data", do_wwwo (fun c f t i d =>
          nothing (Erc721Example.safe_transfer_from_with_data (deployed w) c f t i d (hook c f t i d))));
       ("Erc721Example", "transfer_from", do_www (fun c f t i => nothing (Erc721Example.transfer_from c f t i)));
       ("Erc721Example", "supports_interface",
          read_w (fun id _ => [Word (of_bool (Introspection.Erc721Example (firstn 4 (word id))))]));
       ("Erc721Example", "pause", do_0 (fun c => nothing (Erc721Example.pause c)));
       ("Erc721Example", "unpause", do_0 (fun c => nothing (Erc721Example.unpause c)));
       ("Erc721", "balance_of", ask_w (fun a => Erc721Example.on_erc721 (Erc721.balance_of a)));
       ("Erc721", "owner_of", ask_w (fun i => Erc721Example.on_erc721 (Erc721.owner_of i)));
       ("Erc721", "approve", do_ww (fun c t i => nothing (Erc721Example.on_erc721 (Erc721.approve c t i))));
       ("Erc721", "set_approval_for_all", do_ww (fun c p v =>
          nothing (Erc721Example.on_erc721 (Erc721.set_approval_for_all c p (negb (v =? 0))))));
       ("Erc721", "get_approved", ask_w (fun i => Erc721Example.on_erc721 (Erc721.get_approved i)));
       ("Erc721", "is_approved_for_all", read_ww (fun o p s =>
          [Word (of_bool (Erc721.is_approved_for_all o p (Erc721Example.erc721 s)))]));
       ("Erc721Enumerable", "token_of_owner_by_index", ask_ww (fun o i => on_enumerable (Enumerable.token_of_owner_by_index o i)));
       ("Erc721Enumerable", "total_supply", read1 (fun s => [Word (Enumerable.total_supply (Erc721Example.enumerable s))]));
       ("Erc721Enumerable", "token_by_index", ask_w (fun i => on_enumerable (Enumerable.token_by_index i)));
       ("Pausable", "paused", read1 (fun s => [Word (of_bool (Pausable.paused (Erc721Example.pausable s)))]))]
      revert_erc721_example.
End example.

(** A history of calls, each in its own world. *)
Definition raw_run721 (h : list (world * (Z * Z * list Z))) (s : Erc721Example.state) : Erc721Example.state :=
  fold_left (fun s wc => raw_step (Example721 (fst wc)) s (snd wc)) h s.
