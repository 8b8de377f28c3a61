(** The deployed examples/erc1155-supply as a table of functions for the entry point of
    Model/Entry.v; worlds and the questions to receivers as in Model/EntryErc1155.v. *)
From Verif.Base Require Import Prelude Bytes Maps.
From Coq Require Import String List.
From Verif.Model Require Import Introspection Router Entry EntryErc721 EntryErc1155.
From Verif.Model Require SolAbi Erc1155.
Import SolAbi.
#[global] Open Scope Z_scope.
Local Open Scope string_scope.
Local Open Scope list_scope.
Local Open Scope Z_scope.

(** The receiver only answers: the SDK refuses calls back into the contract. *)
Definition answering (fin : Erc1155.reply) : Erc1155.handler Erc1155.supply_state := fun _ _ _ _ _ s => (fin, s).

Section example.
  Context (w : world).
  (** examples/erc1155-supply/src/lib.rs:24-84; what is not there comes from
      token/erc1155/extensions/supply.rs:111-178. *)
  Definition ExampleSupply : contract Erc1155.supply_state Erc1155.error :=
    mkContract _ _ Pub.Erc1155SupplyExample
      [("Erc1155Example", "total_supply", read_w (fun id s => [Word (mget (Erc1155.total_supply s) id)]));
       ("Erc1155Example", "total_supply_all", read1 (fun s => [Word (Erc1155.total_supply_all s)]));
       ("Erc1155Example", "exists", read_w (fun id s => [Word (of_bool (Erc1155.exists_id id s))]));
       ("Erc1155Example", "mint", fun args c => match args with
          | [Word t; Word i; Word v; Octets d] =>
              nothing (Erc1155._mint Erc1155.supply (deployed w) (answering (hook1155 w c 0 t [i] [v] d)) c t i v d)
          | _ => panic end);
       ("Erc1155Example", "mint_batch", fun args c => match args with
          | [Word t; Words is; Words vs; Octets d] =>
              nothing (Erc1155._mint_batch Erc1155.supply (deployed w) (answering (hook1155 w c 0 t is vs d)) c t is vs d)
          | _ => panic end);
       ("Erc1155Example", "burn", do_www (fun c a i v =>
          nothing (Erc1155._burn Erc1155.supply (deployed w) (answering (Erc1155.Failed [])) c a i v)));
       ("Erc1155Example", "burn_batch", fun args c => match args with
          | [Word a; Words is; Words vs] =>
              nothing (Erc1155._burn_batch Erc1155.supply (deployed w) (answering (Erc1155.Failed [])) c a is vs)
          | _ => panic end);
       ("Erc1155Example", "supports_interface",
          read_w (fun id _ => [Word (of_bool (Introspection.Erc1155SupplyExample (firstn 4 (word id))))]));
       ("Erc1155Supply", "balance_of", read_ww (fun a i s => [Word (Erc1155.balance_of a i (Erc1155.erc1155 s))]));
       ("Erc1155Supply", "balance_of_batch", fun args _ => match args with
          | [Words accounts; Words ids] => l <~ Erc1155.on_base (Erc1155.balance_of_batch accounts ids) ;; ret [Words l]
          | _ => panic end);
       ("Erc1155Supply", "set_approval_for_all", do_ww (fun c p v =>
          nothing (Erc1155.on_base (Erc1155.set_approval_for_all c p (negb (v =? 0))))));
       ("Erc1155Supply", "is_approved_for_all", read_ww (fun o p s =>
          [Word (of_bool (Erc1155.is_approved_for_all o p (Erc1155.erc1155 s)))]));
       ("Erc1155Supply", "safe_transfer_from", fun args c => match args with
          | [Word f; Word t; Word i; Word v; Octets d] =>
              nothing (Erc1155.safe_transfer_from Erc1155.supply (deployed w) (answering (hook1155 w c f t [i] [v] d)) c f t i v d)
          | _ => panic end);
       ("Erc1155Supply", "safe_batch_transfer_from", fun args c => match args with
          | [Word f; Word t; Words is; Words vs; Octets d] =>
              nothing (Erc1155.safe_batch_transfer_from Erc1155.supply (deployed w) (answering (hook1155 w c f t is vs d)) c f t is vs d)
          | _ => panic end)]
      revert_erc1155.
End example.

(** A history of calls, each in its own world. *)
Definition raw_run_supply (h : list (world * (Z * Z * list Z))) (s : Erc1155.supply_state) : Erc1155.supply_state :=
  fold_left (fun s wc => raw_step (ExampleSupply (fst wc)) s (snd wc)) h s.
