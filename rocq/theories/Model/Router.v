(** Model of the dispatch of calls to functions that the Stylus SDK (0.8.4) derives from
    [#[public]] and [#[inherit(...)]], for every public [impl] block of the library and every
    example.

    A public function is called by the selector of its Solidity name, which is the name given
    by [#[selector(name = "...")]] or else the Rust name in camelCase, and its argument types.
    The functions of the contract itself are tried first, then those of the inherited
    contracts in the order of the attribute. The macros are not part of the repository: this
    is their documented behaviour. Not modelled: [#[receive]] (calls without data),
    decoding of the arguments. Generated from the text of the repository. *)
From Verif.Base Require Import Prelude Keccak.
From Coq Require Import String.
From Verif.Model Require Import Introspection.
#[global] Open Scope Z_scope.
Local Open Scope string_scope.
Local Open Scope Z_scope.

Definition selector (f : trait_fn) : Z := function_selector (solidity_fn_name f) (arg_types f).
(** A public [impl] block: the name of the type and its functions. *)
Record block := Block { type_name : string; functions : list trait_fn }.
Fixpoint route_block (t : string) (fs : list trait_fn) (sel : Z) : option (string * string) :=
  match fs with
  | [] => None
  | f :: fs' => if selector f =? sel then Some (t, rust_name f) else route_block t fs' sel
  end.
(** The type and Rust name of the function that handles a selector. *)
Fixpoint route (bs : list block) (sel : Z) : option (string * string) :=
  match bs with
  | [] => None
  | b :: bs' => match route_block (type_name b) (functions b) sel with
                | Some r => Some r
                | None => route bs' sel
                end
  end.

Module Pub.
(** * The library *)
(** contracts/src/access/control.rs:255-306 *)
Definition AccessControl := Block "AccessControl"
  [fn "has_role" [B256; Address]; fn "only_role" [B256]; fn "get_role_admin" [B256];
   fn "grant_role" [B256; Address]; fn "revoke_role" [B256; Address]; fn "renounce_role" [B256; Address]].
(** contracts/src/access/ownable.rs:129-158 *)
Definition Ownable := Block "Ownable"
  [fn "owner" []; fn "transfer_ownership" [Address]; fn "renounce_ownership" []].
(** contracts/src/access/ownable_two_step.rs:161-204 *)
Definition Ownable2Step := Block "Ownable2Step"
  [fn "owner" []; fn "pending_owner" []; fn "transfer_ownership" [Address]; fn "accept_ownership" [];
   fn "renounce_ownership" []].
(** contracts/src/finance/vesting_wallet.rs:351-472 *)
Definition VestingWallet := Block "VestingWallet"
  [fn "owner" []; fn "transfer_ownership" [Address]; fn "renounce_ownership" []; fn "start" [];
   fn "duration" []; fn "end" []; fn_as "released" "released_eth" [];
   fn_as "released" "released_erc20" [Address]; fn_as "releasable" "releasable_eth" [];
   fn_as "releasable" "releasable_erc20" [Address]; fn_as "release" "release_eth" [];
   fn_as "release" "release_erc20" [Address]; fn_as "vestedAmount" "vested_amount_eth" [u64];
   fn_as "vestedAmount" "vested_amount_erc20" [Address; u64]].
(** contracts/src/token/common/erc2981.rs:165-192 *)
Definition Erc2981 := Block "Erc2981"
  [fn "royalty_info" [U256; U256]].
(** contracts/src/token/erc1155/extensions/metadata_uri.rs:57-64 *)
Definition Erc1155MetadataUri := Block "Erc1155MetadataUri"
  [fn "uri" [U256]].
(** contracts/src/token/erc1155/extensions/supply.rs:102-152 *)
Definition Erc1155Supply := Block "Erc1155Supply"
  [fn "balance_of" [Address; U256]; fn "balance_of_batch" [Vec Address; Vec U256];
   fn "set_approval_for_all" [Address; bool_]; fn "is_approved_for_all" [Address; Address];
   fn "safe_transfer_from" [Address; Address; U256; U256; Bytes];
   fn "safe_batch_transfer_from" [Address; Address; Vec U256; Vec U256; Bytes]].
(** contracts/src/token/erc1155/mod.rs:361-419 *)
Definition Erc1155 := Block "Erc1155"
  [fn "balance_of" [Address; U256]; fn "balance_of_batch" [Vec Address; Vec U256];
   fn "set_approval_for_all" [Address; bool_]; fn "is_approved_for_all" [Address; Address];
   fn "safe_transfer_from" [Address; Address; U256; U256; Bytes];
   fn "safe_batch_transfer_from" [Address; Address; Vec U256; Vec U256; Bytes]].
(** contracts/src/token/erc20/extensions/capped.rs:58-63 *)
Definition Capped := Block "Capped"
  [fn "cap" []].
(** contracts/src/token/erc20/extensions/metadata.rs:62-74 *)
Definition Erc20Metadata := Block "Erc20Metadata"
  [fn "name" []; fn "symbol" []; fn "decimals" []].
(** contracts/src/token/erc20/extensions/permit.rs:90-102 *)
Definition Erc20Permit := Block "Erc20Permit"
  [fn_as "DOMAIN_SEPARATOR" "domain_separator" []].
(** contracts/src/token/erc20/mod.rs:271-316 *)
Definition Erc20 := Block "Erc20"
  [fn "total_supply" []; fn "balance_of" [Address]; fn "transfer" [Address; U256];
   fn "allowance" [Address; Address]; fn "approve" [Address; U256];
   fn "transfer_from" [Address; Address; U256]].
(** contracts/src/token/erc20/utils/safe_erc20.rs:233-316 *)
Definition SafeErc20 := Block "SafeErc20"
  [fn "safe_transfer" [Address; Address; U256];
   fn "safe_transfer_from" [Address; Address; Address; U256];
   fn "safe_increase_allowance" [Address; Address; U256];
   fn "safe_decrease_allowance" [Address; Address; U256]; fn "force_approve" [Address; Address; U256]].
(** contracts/src/token/erc721/extensions/consecutive.rs:171-259 *)
Definition Erc721Consecutive := Block "Erc721Consecutive"
  [fn "balance_of" [Address]; fn "owner_of" [U256]; fn "safe_transfer_from" [Address; Address; U256];
   fn_as "safeTransferFrom" "safe_transfer_from_with_data" [Address; Address; U256; Bytes];
   fn "transfer_from" [Address; Address; U256]; fn "approve" [Address; U256];
   fn "set_approval_for_all" [Address; bool_]; fn "get_approved" [U256];
   fn "is_approved_for_all" [Address; Address]].
(** contracts/src/token/erc721/extensions/enumerable.rs:138-165 *)
Definition Erc721Enumerable := Block "Erc721Enumerable"
  [fn "token_of_owner_by_index" [Address; U256]; fn "total_supply" []; fn "token_by_index" [U256]].
(** contracts/src/token/erc721/extensions/metadata.rs:61-69 *)
Definition Erc721Metadata := Block "Erc721Metadata"
  [fn "name" []; fn "symbol" []].
(** contracts/src/token/erc721/mod.rs:409-491 *)
Definition Erc721 := Block "Erc721"
  [fn "balance_of" [Address]; fn "owner_of" [U256]; fn "safe_transfer_from" [Address; Address; U256];
   fn_as "safeTransferFrom" "safe_transfer_from_with_data" [Address; Address; U256; Bytes];
   fn "transfer_from" [Address; Address; U256]; fn "approve" [Address; U256];
   fn "set_approval_for_all" [Address; bool_]; fn "get_approved" [U256];
   fn "is_approved_for_all" [Address; Address]].
(** contracts/src/utils/metadata.rs:16-34 *)
Definition Metadata := Block "Metadata"
  [fn "name" []; fn "symbol" []].
(** contracts/src/utils/nonces.rs:52-63 *)
Definition Nonces := Block "Nonces"
  [fn "nonces" [Address]].
(** contracts/src/utils/pausable.rs:80-89 *)
Definition Pausable := Block "Pausable"
  [fn "paused" []].

(** * The examples: the contract itself, then what it inherits *)
(** examples/access-control/src/lib.rs:33-56 *)
Definition AccessControlExample : list block :=
  [Block "AccessControlExample"
     [fn "make_admin" [Address]; fn "transfer_from" [Address; Address; U256];
      fn "set_role_admin" [B256; B256]]; Erc20; AccessControl].
(** examples/ecdsa/src/lib.rs:15-25 *)
Definition ECDSAExample : list block :=
  [Block "ECDSAExample"
     [fn "recover" [B256; u8; B256; B256]]].
(** examples/erc1155-metadata-uri/src/lib.rs:25-44 *)
Definition Erc1155MetadataUriExample : list block :=
  [Block "Erc1155MetadataUriExample"
     [fn "uri" [U256]; fn_as "setTokenURI" "set_token_uri" [U256; String_];
      fn_as "setBaseURI" "set_base_uri" [String_]; fn "supports_interface" [FixedBytes4]]; Erc1155].
(** examples/erc1155-supply/src/lib.rs:26-83 *)
Definition Erc1155SupplyExample : list block :=
  [Block "Erc1155Example"
     [fn "total_supply" [U256]; fn_as "totalSupply" "total_supply_all" []; fn "exists" [U256];
      fn "mint" [Address; U256; U256; Bytes]; fn "mint_batch" [Address; Vec U256; Vec U256; Bytes];
      fn "burn" [Address; U256; U256]; fn "burn_batch" [Address; Vec U256; Vec U256];
      fn "supports_interface" [FixedBytes4]]; Erc1155Supply].
(** examples/erc1155/src/lib.rs:30-118 *)
Definition Erc1155Example : list block :=
  [Block "Erc1155Example"
     [fn "mint" [Address; U256; U256; Bytes]; fn "mint_batch" [Address; Vec U256; Vec U256; Bytes];
      fn "burn" [Address; U256; U256]; fn "burn_batch" [Address; Vec U256; Vec U256];
      fn "safe_transfer_from" [Address; Address; U256; U256; Bytes];
      fn "safe_batch_transfer_from" [Address; Address; Vec U256; Vec U256; Bytes];
      fn "supports_interface" [FixedBytes4]; fn "pause" []; fn "unpause" []]; Erc1155; Pausable].
(** examples/erc20-flash-mint/src/lib.rs:31-59 *)
Definition Erc20FlashMintExample : list block :=
  [Block "Erc20FlashMintExample"
     [fn "max_flash_loan" [Address]; fn "flash_fee" [Address; U256];
      fn "flash_loan" [Address; Address; U256; Bytes]; fn "mint" [Address; U256]]; Erc20].
(** examples/erc20-permit/src/lib.rs:37-70 *)
Definition Erc20PermitExample : list block :=
  [Block "Erc20PermitExample"
     [fn "mint" [Address; U256]; fn "permit" [Address; Address; U256; U256; u8; B256; B256]]; Erc20; Nonces; Erc20Permit].
(** examples/erc20-wrapper/src/lib.rs:24-48 *)
Definition Erc20WrapperExample : list block :=
  [Block "Erc20WrapperExample"
     [fn "underlying" []; fn "decimals" []; fn "deposit_for" [Address; U256];
      fn "withdraw_to" [Address; U256]]; Erc20].
(** examples/erc20/src/lib.rs:41-124 *)
Definition Erc20Example : list block :=
  [Block "Erc20Example"
     [fn "decimals" []; fn "burn" [U256]; fn "burn_from" [Address; U256]; fn "mint" [Address; U256];
      fn "transfer" [Address; U256]; fn "transfer_from" [Address; Address; U256];
      fn "supports_interface" [FixedBytes4]; fn "pause" []; fn "unpause" []]; Erc20; Erc20Metadata; Capped; Pausable].
(** examples/erc4626/src/lib.rs:33-115 *)
Definition Erc4626Example : list block :=
  [Block "Erc4626Example"
     [fn "decimals" []; fn "asset" []; fn "total_assets" []; fn "convert_to_shares" [U256];
      fn "convert_to_assets" [U256]; fn "max_deposit" [Address]; fn "preview_deposit" [U256];
      fn "deposit" [U256; Address]; fn "max_mint" [Address]; fn "preview_mint" [U256];
      fn "mint" [U256; Address]; fn "max_withdraw" [Address]; fn "preview_withdraw" [U256];
      fn "withdraw" [U256; Address; Address]; fn "max_redeem" [Address]; fn "preview_redeem" [U256];
      fn "redeem" [U256; Address; Address]]; Erc20; Erc20Metadata].
(** examples/erc721-consecutive/src/lib.rs:23-39 *)
Definition Erc721ConsecutiveExample : list block :=
  [Block "Erc721ConsecutiveExample"
     [fn "burn" [U256]; fn "mint" [Address; U256]; fn "supports_interface" [FixedBytes4]]; Erc721Consecutive].
(** examples/erc721-metadata/src/lib.rs:32-59 *)
Definition Erc721MetadataExample : list block :=
  [Block "Erc721MetadataExample"
     [fn "mint" [Address; U256]; fn "burn" [U256]; fn_as "tokenURI" "token_uri" [U256];
      fn_as "setTokenURI" "set_token_uri" [U256; String_]; fn "supports_interface" [FixedBytes4]]; Erc721; Erc721Metadata].
(** examples/erc721-wrapper/src/lib.rs:24-60 *)
Definition Erc721WrapperExample : list block :=
  [Block "Erc721WrapperExample"
     [fn "underlying" []; fn "deposit_for" [Address; Vec U256]; fn "withdraw_to" [Address; Vec U256];
      fn "on_erc721_received" [Address; Address; U256; Bytes]]; Erc721].
(** examples/erc721/src/lib.rs:39-198 *)
Definition Erc721Example : list block :=
  [Block "Erc721Example"
     [fn "burn" [U256]; fn "mint" [Address; U256]; fn "safe_mint" [Address; U256; Bytes];
      fn "safe_transfer_from" [Address; Address; U256];
      fn_as "safeTransferFrom" "safe_transfer_from_with_data" [Address; Address; U256; Bytes];
      fn "transfer_from" [Address; Address; U256]; fn "supports_interface" [FixedBytes4]; fn "pause" [];
      fn "unpause" []]; Erc721; Erc721Enumerable; Pausable].
(** examples/merkle-proofs/src/lib.rs:56-78 *)
Definition VerifierContract : list block :=
  [Block "VerifierContract"
     [fn "verify" [Vec B256; B256; B256]; fn "verify_multi_proof" [Vec B256; Vec bool_; B256; Vec B256]]].
(** examples/ownable-two-step/src/lib.rs:30-36 *)
Definition Ownable2StepExample : list block :=
  [Block "Ownable2StepExample"
     [fn "transfer" [Address; U256]]; Erc20; Ownable2Step].
(** examples/ownable/src/lib.rs:30-36 *)
Definition OwnableExample : list block :=
  [Block "OwnableExample"
     [fn "transfer" [Address; U256]]; Erc20; Ownable].
(** examples/poseidon/src/lib.rs:19-35 *)
Definition PoseidonExample : list block :=
  [Block "PoseidonExample"
     [fn "hash" [U256x2]]].
(** examples/safe-erc20/src/lib.rs:16-16 *)
Definition SafeErc20Example : list block :=
  [Block "SafeErc20Example" []; SafeErc20].
(** examples/vesting-wallet/src/lib.rs:16-21 *)
Definition VestingWalletExample : list block :=
  [Block "VestingWalletExample" []; VestingWallet].
End Pub.
