(** The deployed examples/basic/token as a table of functions for the entry point of
    Model/Entry.v. [name] and [symbol] are written by the constructor
    (examples/basic/token/src/constructor.sol:12-15); nothing else is. *)
From Verif.Base Require Import Prelude Bytes.
From Coq Require Import String List.
From Verif.Model Require Import Introspection Router Entry EntryErc20.
From Verif.Model Require SolAbi Erc20.
Import SolAbi.
#[global] Open Scope Z_scope.
Local Open Scope string_scope.
Local Open Scope list_scope.
Local Open Scope Z_scope.

(** examples/basic/token/src/lib.rs:21-31 *)
Definition BasicExample : list block :=
  [Block "Erc20Example" [fn "mint" [Address; U256]]; Pub.Erc20; Pub.Erc20Metadata].
(** lib.rs:24-30 calls [_mint]; extensions/metadata.rs:62-74 for the last three. *)
Definition ExampleBasic (name symbol : list Z) : contract Erc20.state Erc20.error :=
  mkContract _ _ BasicExample
    ([("Erc20Example", "mint", do_ww (fun _ a v => nothing (Erc20._mint a v)))] ++
     erc20_bodies (fun s => s) (fun _ m => m) ++
     [("Erc20Metadata", "name", read1 (fun _ => [Octets name]));
      ("Erc20Metadata", "symbol", read1 (fun _ => [Octets symbol]));
      ("Erc20Metadata", "decimals", read1 (fun _ => [Word 18]))])
    revert_erc20.
