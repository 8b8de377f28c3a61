(** The deployed examples/erc1155 as a table of functions for the entry point of Model/Entry.v,
    with the calls that mints and transfers make to the receiver; worlds as in
    Model/EntryErc721.v. *)
From Verif.Base Require Import Prelude Bytes.
From Coq Require Import String List.
From Verif.Model Require Import Introspection Router Entry EntryErc721.
From Verif.Model Require SolAbi Erc1155 Pausable Erc1155Example.
Import SolAbi.
#[global] Open Scope Z_scope.
Local Open Scope string_scope.
Local Open Scope list_scope.
Local Open Scope Z_scope.

(** token/erc1155/receiver.rs:9-71: the [sol_interface!] of the receiver; which function is called
    and its arguments are those of mod.rs:761-772. *)
Definition hook_data1155 (operator from : Z) (details : Erc1155.transfer) (data : list Z) : list Z :=
  match details with
  | Erc1155.Single id value =>
      be_bytes 4 (function_selector "onERC1155Received" [Address; Address; U256; U256; Bytes]) ++
      abi_params [Word operator; Word from; Word id; Word value; Octets data]
  | Erc1155.Batch ids values =>
      be_bytes 4 (function_selector "onERC1155BatchReceived" [Address; Address; Vec U256; Vec U256; Bytes]) ++
      abi_params [Word operator; Word from; Words ids; Words values; Octets data]
  end.
(** mod.rs:774-791, decoding as in Model/EntryErc721.v *)
Definition reply1155 (a : answer) : Erc1155.reply :=
  match a with
  | Returned d => match decode_params [FixedBytes4] d with
                  | Some [Word v] => Erc1155.Returned (v / 2 ^ 224)
                  | _ => Erc1155.Failed []
                  end
  | Reverted d => Erc1155.Failed d
  end.

(** examples/erc1155/src/lib.rs:13-17: [#[derive(SolidityError)]] *)
Definition revert_erc1155_example (e : Erc1155Example.error) : list Z :=
  match e with
  | Erc1155Example.Erc1155Error e => revert_erc1155 e
  | Erc1155Example.PausableError e => revert_pausable e
  end.

Section example.
  Context (w : world).
  (** What the receiver answers to the hook. *)
  Definition hook1155 (caller from to : Z) (ids values data : list Z) : Erc1155.reply :=
    reply1155 (replies w to (hook_data1155 caller from (snd (Erc1155.receiver_data ids values)) data)).
  (** examples/erc1155/src/lib.rs:28-118; what is not overridden there comes from
      token/erc1155/mod.rs:360-418 and utils/pausable.rs. *)
  Definition Example1155 : contract Erc1155Example.state Erc1155Example.error :=
    mkContract _ _ Pub.Erc1155Example
      [("Erc1155Example", "mint", fun args c => match args with
          | [Word t; Word i; Word v; Octets d] => nothing (Erc1155Example.mint (deployed w) c t i v d (hook1155 c 0 t [i] [v] d))
          | _ => panic end);
       ("Erc1155Example", "mint_batch", fun args c => match args with
          | [Word t; Words is; Words vs; Octets d] => nothing (Erc1155Example.mint_batch (deployed w) c t is vs d (hook1155 c 0 t is vs d))
          | _ => panic end);
       ("Erc1155Example", "burn", do_www (fun c a i v => nothing (Erc1155Example.burn c a i v)));
       ("Erc1155Example", "burn_batch", fun args c => match args with
          | [Word a; Words is; Words vs] => nothing (Erc1155Example.burn_batch c a is vs)
          | _ => panic end);
       ("Erc1155Example", "safe_transfer_from", fun args c => match args with
          | [Word f; Word t; Word i; Word v; Octets d] =>
              nothing (Erc1155Example.safe_transfer_from (deployed w) c f t i v d (hook1155 c f t [i] [v] d))
          | _ => panic end);
       ("Erc1155Example", "safe_batch_transfer_from", fun args c => match args with
          | [Word f; Word t; Words is; Words vs; Octets d] =>
              nothing (Erc1155Example.safe_batch_transfer_from (deployed w) c f t is vs d (hook1155 c f t is vs d))
          | _ => panic end);
       ("Erc1155Example", "supports_interface",
          read_w (fun id _ => [Word (of_bool (Introspection.Erc1155Example (firstn 4 (word id))))]));
       ("Erc1155Example", "pause", do_0 (fun c => nothing (Erc1155Example.pause c)));
       ("Erc1155Example", "unpause", do_0 (fun c => nothing (Erc1155Example.unpause c)));
       ("Erc1155", "balance_of", read_ww (fun a i s => [Word (Erc1155.balance_of a i (Erc1155Example.erc1155 s))]));
       ("Erc1155", "balance_of_batch", fun args _ => match args with
          | [Words accounts; Words ids] => l <~ Erc1155Example.on_erc1155 (Erc1155.balance_of_batch accounts ids) ;; ret [Words l]
          | _ => panic end);
       ("Erc1155", "set_approval_for_all", do_ww (fun c p v =>
          nothing (Erc1155Example.on_erc1155 (Erc1155.set_approval_for_all c p (negb (v =? 0))))));
       ("Erc1155", "is_approved_for_all", read_ww (fun o p s =>
          [Word (of_bool (Erc1155.is_approved_for_all o p (Erc1155Example.erc1155 s)))]));
       ("Pausable", "paused", read1 (fun s => [Word (of_bool (Pausable.paused (Erc1155Example.pausable s)))]))]
      revert_erc1155_example.
End example.

(** A history of calls, each in its own world. *)
Definition raw_run1155 (h : list (world * (Z * Z * list Z))) (s : Erc1155Example.state) : Erc1155Example.state :=
  fold_left (fun s wc => raw_step (Example1155 (fst wc)) s (snd wc)) h s.
