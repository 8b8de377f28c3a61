(** Model of contracts/src/utils/cryptography/eip712.rs. [keccak] is an arbitrary function
    from byte strings to 256-bit words. *)
From Verif.Base Require Import Prelude Bytes Keccak.
From Coq Require Import String.
#[global] Open Scope Z_scope.

Section eip712.
  Variable keccak : list Z -> Z.

  (** What the implementing contract provides: NAME, VERSION (eip712.rs:64-71, as bytes),
      chain_id(), contract_address() (77-85). *)
  Record domain := mk { name : list Z; version : list Z; chain_id : Z; contract_address : Z }.

  (** eip712.rs:20-23 *)
  Definition TYPE_HASH : Z := keccak (bytes_of_string
    "EIP712Domain(string name,string version,uint256 chainId,address verifyingContract)").

  (** eip712.rs:31, 49-58 *)
  Definition to_typed_data_hash (domain_separator struct_hash : Z) : Z :=
    keccak ([0x19; 0x01] ++ word domain_separator ++ word struct_hash).

  (** eip712.rs:26, 29, 93-105: what ERC-5267 wallets ask for. The fields byte, name, version,
      chain id, address, salt and extensions, in this order. *)
  Definition FIELDS : Z := 0x0f.
  Definition SALT : Z := 0.
  Definition eip712_domain (d : domain) : Z * list Z * list Z * Z * Z * Z * list Z :=
    (FIELDS, name d, version d, chain_id d, contract_address d, SALT, []).

  (** eip712.rs:112-122; HASHED_NAME, HASHED_VERSION at 65-71 *)
  Definition domain_separator_preimage (d : domain) : list Z :=
    word TYPE_HASH ++ word (keccak (name d)) ++ word (keccak (version d)) ++
    word (chain_id d) ++ word (contract_address d).
  Definition domain_separator_v4 (d : domain) : Z := keccak (domain_separator_preimage d).

  (** eip712.rs:132-135 *)
  Definition hash_typed_data_v4 (d : domain) (struct_hash : Z) : Z :=
    to_typed_data_hash (domain_separator_v4 d) struct_hash.
End eip712.
