(** The deployed examples/erc20-permit and examples/ecdsa, as tables of functions for the entry
    point of Model/Entry.v. [keccak] and the [ecrecover] precompile are arbitrary functions;
    every call happens at some block time. *)
From Verif.Base Require Import Prelude Bytes Keccak.
From Coq Require Import String List.
From Verif.Model Require Import Introspection Router Entry EntryErc20.
From Verif.Model Require SolAbi Erc20 Nonces Ecdsa Eip712 Permit.
Import SolAbi.
#[global] Open Scope Z_scope.
Local Open Scope string_scope.
Local Open Scope list_scope.
Local Open Scope Z_scope.

Section example.
  Context (keccak : list Z -> Z) (ecrecover : Ecdsa.precompile) (chain this : Z).
  (** examples/erc20-permit/src/lib.rs:30-33; [chain] and [this] are block::chainid() and
      contract::address() (eip712.rs:77-85). *)
  Definition permit_domain : Eip712.domain :=
    Eip712.mk (bytes_of_string "ERC-20 Permit Example") (bytes_of_string "1") chain this.
  (** examples/erc20-permit/src/lib.rs:35-70, in a block with the given time. *)
  Definition ExamplePermit (now : Z) : contract Permit.state Permit.error :=
    mkContract _ _ Pub.Erc20PermitExample
      ([("Erc20PermitExample", "mint", do_ww (fun _ a v => nothing (Permit.on_erc20 (Erc20._mint a v))));
        ("Erc20PermitExample", "permit", fun args _ =>
          match args with
          | [Word owner; Word spender; Word value; Word deadline; Word v; Word r; Word s] =>
              nothing (Permit.permit keccak ecrecover permit_domain now owner spender value deadline v r s)
          | _ => panic
          end)] ++
       erc20_bodies Permit.erc20 (@Permit.on_erc20) ++
       [("Nonces", "nonces", read_w (fun a s => [Word (Nonces.nonces (Permit.nonces s) a)]));
        ("Erc20Permit", "domain_separator", read1 (fun _ => [Word (Eip712.domain_separator_v4 keccak permit_domain)]))])
      revert_permit.
  (** Calls over time: block time, sender, value, calldata. *)
  Definition permit_raw_step (s : Permit.state) (x : Z * (Z * Z * list Z)) : Permit.state :=
    raw_step (ExamplePermit (fst x)) s (snd x).
  Definition permit_raw_run (h : list (Z * (Z * Z * list Z))) (s : Permit.state) : Permit.state := fold_left permit_raw_step h s.
End example.

(** examples/ecdsa/src/lib.rs:15-25; the contract has no state. *)
Definition ExampleEcdsa (ecrecover : Ecdsa.precompile) : contract unit Ecdsa.error :=
  mkContract _ _ Pub.ECDSAExample
    [("ECDSAExample", "recover", fun args _ =>
       match args with
       | [Word hash; Word v; Word r; Word s] =>
           a <~ lift_res (Ecdsa.recover ecrecover hash v r s) ;; ret [Word a]
       | _ => panic
       end)]
    revert_ecdsa.
