(** Model of contracts-proc/src/interface_id.rs, of contracts/src/utils/introspection/erc165.rs,
    of the [INTERFACE_ID] constants of the library's traits and of every [supports_interface].

    Selectors are computed with the executable Keccak-256 of Base/Keccak.v. Simplification:
    [to_case(Case::Camel)] of the convert_case crate is modelled for snake_case names made
    of lower-case letters and digits, the only ones that reach it. *)
From Verif.Base Require Import Prelude Bytes Keccak.
From Coq Require Import String Ascii.
#[global] Open Scope Z_scope.
Local Open Scope string_scope.

(** The ABI names of the argument types that occur ([AbiType] of the SDK). *)
Inductive abi_type :=
| Address | U256 | u64 | u8 | bool_ | Bytes (* stylus_sdk::abi::Bytes *) | FixedBytes4 | B256 | String_
| Vec (t : abi_type) | U256x2 (* [U256; 2] *).
Fixpoint abi_name (t : abi_type) : string :=
  match t with
  | Address => "address" | U256 => "uint256" | u64 => "uint64" | u8 => "uint8" | bool_ => "bool" | Bytes => "bytes"
  | FixedBytes4 => "bytes4" | B256 => "bytes32" | String_ => "string" | Vec t => abi_name t ++ "[]"
  | U256x2 => "uint256[2]"
  end.

Definition upper (c : ascii) : ascii :=
  let n := nat_of_ascii c in
  if andb (97 <=? n)%nat (n <=? 122)%nat then ascii_of_nat (n - 32) else c.
(** interface_id.rs line 46: snake_case to camelCase *)
Fixpoint to_camel (s : string) : string :=
  match s with
  | EmptyString => EmptyString
  | String "_" (String c r) => String (upper c) (to_camel r)
  | String c r => String c (to_camel r)
  end.

(** A function of a trait: its Rust name, the name given by [#[selector(name = "...")]] if
    any, and the types of its arguments other than [self] (interface_id.rs lines 24-55). *)
Record trait_fn := TraitFn { rust_name : string; selector_attr : option string; arg_types : list abi_type }.
Definition fn (name : string) (args : list abi_type) : trait_fn := TraitFn name None args.
Definition fn_as (sel name : string) (args : list abi_type) : trait_fn := TraitFn name (Some sel) args.
(** lines 44-47 *)
Definition solidity_fn_name (f : trait_fn) : string :=
  match selector_attr f with Some n => n | None => to_camel (rust_name f) end.
Fixpoint join (l : list string) : string :=
  match l with [] => "" | [x] => x | x :: r => x ++ "," ++ join r end.
Definition signature (name : string) (args : list abi_type) : string :=
  name ++ "(" ++ join (map abi_name args) ++ ")".
(** stylus_sdk::function_selector!, as a number (u32::from_be_bytes) *)
Definition function_selector (name : string) (args : list abi_type) : Z :=
  keccak256 (bytes_of_string (signature name args)) / 2 ^ 224.
(** interface_id.rs lines 58-60, 78-80: the selectors joined by ^ *)
Definition xors (l : list Z) : Z := match l with [] => 0 | x :: r => fold_left Z.lxor r x end.
Definition interface_id (t : list trait_fn) : Z :=
  xors (map (fun f => function_selector (solidity_fn_name f) (arg_types f)) t).

(** * The traits *)
(** utils/introspection/erc165.rs lines 16-43 *)
Definition IErc165 := [fn "supports_interface" [FixedBytes4]].
(** access/control.rs lines 139-252 *)
Definition IAccessControl :=
  [fn "has_role" [B256; Address]; fn "only_role" [B256]; fn "get_role_admin" [B256];
   fn "grant_role" [B256; Address]; fn "revoke_role" [B256; Address]; fn "renounce_role" [B256; Address]].
(** access/ownable.rs lines 75-126 *)
Definition IOwnable := [fn "owner" []; fn "transfer_ownership" [Address]; fn "renounce_ownership" []].
(** access/ownable_two_step.rs lines 76-158 *)
Definition IOwnable2Step :=
  [fn "owner" []; fn "pending_owner" []; fn "transfer_ownership" [Address]; fn "accept_ownership" [];
   fn "renounce_ownership" []].
(** finance/vesting_wallet.rs lines 133-348 *)
Definition IVestingWallet :=
  [fn "owner" []; fn "transfer_ownership" [Address]; fn "renounce_ownership" []; fn "start" []; fn "duration" [];
   fn "end" []; fn_as "released" "released_eth" []; fn_as "released" "released_erc20" [Address];
   fn_as "releasable" "releasable_eth" []; fn_as "releasable" "releasable_erc20" [Address];
   fn_as "release" "release_eth" []; fn_as "release" "release_erc20" [Address];
   fn_as "vestedAmount" "vested_amount_eth" [u64]; fn_as "vestedAmount" "vested_amount_erc20" [Address; u64]].
(** token/common/erc2981.rs lines 132-157 *)
Definition IErc2981 := [fn "royalty_info" [U256; U256]].
(** token/erc1155/extensions/metadata_uri.rs lines 42-54 *)
Definition IErc1155MetadataUri := [fn "uri" [U256]].
(** token/erc1155/extensions/supply.rs lines 60-85 *)
Definition IErc1155Supply :=
  [fn "total_supply" [U256]; fn_as "totalSupply" "total_supply_all" []; fn "exists" [U256]].
(** token/erc1155/mod.rs lines 215-358 *)
Definition IErc1155 :=
  [fn "balance_of" [Address; U256]; fn "balance_of_batch" [Vec Address; Vec U256];
   fn "set_approval_for_all" [Address; bool_]; fn "is_approved_for_all" [Address; Address];
   fn "safe_transfer_from" [Address; Address; U256; U256; Bytes];
   fn "safe_batch_transfer_from" [Address; Address; Vec U256; Vec U256; Bytes]].
(** token/erc20/extensions/metadata.rs lines 24-59 *)
Definition IErc20Metadata := [fn "name" []; fn "symbol" []; fn "decimals" []].
(** token/erc20/mod.rs lines 142-268 *)
Definition IErc20 :=
  [fn "total_supply" []; fn "balance_of" [Address]; fn "transfer" [Address; U256]; fn "allowance" [Address; Address];
   fn "approve" [Address; U256]; fn "transfer_from" [Address; Address; U256]].
(** token/erc20/utils/safe_erc20.rs lines 102-230 *)
Definition ISafeErc20 :=
  [fn "safe_transfer" [Address; Address; U256]; fn "safe_transfer_from" [Address; Address; Address; U256];
   fn "safe_increase_allowance" [Address; Address; U256]; fn "safe_decrease_allowance" [Address; Address; U256];
   fn "force_approve" [Address; Address; U256]].
(** token/erc721/extensions/enumerable.rs lines 84-135 *)
Definition IErc721Enumerable :=
  [fn "token_of_owner_by_index" [Address; U256]; fn "total_supply" []; fn "token_by_index" [U256]].
(** token/erc721/mod.rs lines 206-406 *)
Definition IErc721 :=
  [fn "balance_of" [Address]; fn "owner_of" [U256]; fn "safe_transfer_from" [Address; Address; U256];
   fn_as "safeTransferFrom" "safe_transfer_from_with_data" [Address; Address; U256; Bytes];
   fn "transfer_from" [Address; Address; U256]; fn "approve" [Address; U256];
   fn "set_approval_for_all" [Address; bool_]; fn "get_approved" [U256];
   fn "is_approved_for_all" [Address; Address]].

(** * Identifiers written out by hand *)
(** token/erc721/extensions/metadata.rs lines 35-40 *)
Definition IErc721Metadata_INTERFACE_ID : Z :=
  xors [function_selector "name" []; function_selector "symbol" []; function_selector "tokenURI" [U256]].
(** token/erc20/extensions/wrapper.rs lines 107-119 *)
Definition IErc20Wrapper_INTERFACE_ID : Z :=
  xors [function_selector "decimals" []; function_selector "underlying" [];
        function_selector "depositFor" [Address; U256]; function_selector "withdrawTo" [Address; U256]].
(** token/erc20/extensions/erc4626.rs lines 165-218 *)
Definition IErc4626_INTERFACE_ID : Z :=
  xors [function_selector "asset" []; function_selector "totalAssets" [];
        function_selector "convertToShares" [U256]; function_selector "convertToAssets" [U256];
        function_selector "maxDeposit" [Address]; function_selector "previewDeposit" [U256];
        function_selector "deposit" [U256; Address]; function_selector "maxMint" [Address];
        function_selector "previewMint" [U256]; function_selector "mint" [U256; Address];
        function_selector "maxWithdraw" [Address]; function_selector "previewWithdraw" [U256];
        function_selector "withdraw" [U256; Address; Address]; function_selector "maxRedeem" [Address];
        function_selector "previewRedeem" [U256]; function_selector "redeem" [U256; Address; Address]].
(** token/erc20/extensions/flash_mint.rs lines 152-164 *)
Definition IErc3156FlashLender_INTERFACE_ID : Z :=
  xors [function_selector "maxFlashLoan" [Address]; function_selector "flashFee" [Address; U256];
        function_selector "flashLoan" [Address; Address; U256; Bytes]].

Local Close Scope string_scope.
(** * supports_interface. The argument is a [FixedBytes<4>]: four bytes. *)
(** erc165.rs lines 61-65 *)
Definition Erc165 (b : list Z) : bool := interface_id IErc165 =? of_be b.
(** access/control.rs lines 408-414 *)
Definition AccessControl (b : list Z) : bool := (interface_id IAccessControl =? of_be b) || Erc165 b.
(** access/ownable.rs lines 200-205 *)
Definition Ownable (b : list Z) : bool := (interface_id IOwnable =? of_be b) || Erc165 b.
(** access/ownable_two_step.rs lines 228-236 *)
Definition Ownable2Step (b : list Z) : bool :=
  (interface_id IOwnable2Step =? of_be b) || (interface_id IOwnable =? of_be b) || Erc165 b.
(** finance/vesting_wallet.rs lines 512-518 *)
Definition VestingWallet (b : list Z) : bool := (interface_id IVestingWallet =? of_be b) || Erc165 b.
(** token/common/erc2981.rs lines 194-199 *)
Definition Erc2981 (b : list Z) : bool := (interface_id IErc2981 =? of_be b) || Erc165 b.
(** token/erc1155/mod.rs lines 421-426 *)
Definition Erc1155 (b : list Z) : bool := (interface_id IErc1155 =? of_be b) || Erc165 b.
(** token/erc1155/extensions/metadata_uri.rs lines 66-72 *)
Definition Erc1155MetadataUri (b : list Z) : bool := (interface_id IErc1155MetadataUri =? of_be b) || Erc165 b.
(** token/erc1155/extensions/supply.rs lines 376-384 *)
Definition Erc1155Supply (b : list Z) : bool :=
  (interface_id IErc1155Supply =? of_be b) || (interface_id IErc1155 =? of_be b) || Erc165 b.
(** token/erc20/mod.rs lines 578-583 *)
Definition Erc20 (b : list Z) : bool := (interface_id IErc20 =? of_be b) || Erc165 b.
(** token/erc20/extensions/metadata.rs lines 76-82 *)
Definition Erc20Metadata (b : list Z) : bool := (interface_id IErc20Metadata =? of_be b) || Erc165 b.
(** token/erc20/extensions/wrapper.rs lines 335-341 *)
Definition Erc20Wrapper (b : list Z) : bool := (IErc20Wrapper_INTERFACE_ID =? of_be b) || Erc165 b.
(** token/erc20/extensions/erc4626.rs lines 1218-1223 *)
Definition Erc4626 (b : list Z) : bool := (IErc4626_INTERFACE_ID =? of_be b) || Erc165 b.
(** token/erc20/extensions/flash_mint.rs lines 367-373 *)
Definition Erc20FlashMint (b : list Z) : bool := (IErc3156FlashLender_INTERFACE_ID =? of_be b) || Erc165 b.
(** token/erc20/utils/safe_erc20.rs lines 402-407 *)
Definition SafeErc20 (b : list Z) : bool := (interface_id ISafeErc20 =? of_be b) || Erc165 b.
(** token/erc721/mod.rs lines 493-498 and extensions/consecutive.rs lines 778-783 *)
Definition Erc721 (b : list Z) : bool := (interface_id IErc721 =? of_be b) || Erc165 b.
Definition Erc721Consecutive (b : list Z) : bool := (interface_id IErc721 =? of_be b) || Erc165 b.
(** token/erc721/extensions/enumerable.rs lines 167-173 *)
Definition Erc721Enumerable (b : list Z) : bool := (interface_id IErc721Enumerable =? of_be b) || Erc165 b.
(** token/erc721/extensions/metadata.rs lines 71-77 *)
Definition Erc721Metadata (b : list Z) : bool := (IErc721Metadata_INTERFACE_ID =? of_be b) || Erc165 b.

(** The shipped examples that answer the query: examples/erc20 (lines 108-111), erc721 (182-185),
    erc721-metadata (55-58), erc721-consecutive (36-38), erc1155 (103-105), erc1155-supply
    (80-82), erc1155-metadata-uri (40-43). *)
Definition Erc20Example (b : list Z) : bool := Erc20 b || Erc20Metadata b.
Definition Erc721Example (b : list Z) : bool := Erc721 b || Erc721Enumerable b.
Definition Erc721MetadataExample (b : list Z) : bool := Erc721 b || Erc721Metadata b.
Definition Erc721ConsecutiveExample (b : list Z) : bool := Erc721 b.
Definition Erc1155Example (b : list Z) : bool := Erc1155 b.
Definition Erc1155SupplyExample (b : list Z) : bool := Erc1155 b.
Definition Erc1155MetadataUriExample (b : list Z) : bool := Erc1155 b || Erc1155MetadataUri b.

Local Open Scope string_scope.
(** * Selectors receivers must answer with *)
(** token/erc721/mod.rs lines 25-26 *)
Definition RECEIVER_FN_SELECTOR : Z := function_selector "onERC721Received" [Address; Address; U256; Bytes].
(** token/erc1155/mod.rs lines 24-31, 35-42 *)
Definition SINGLE_TRANSFER_FN_SELECTOR : Z :=
  function_selector "onERC1155Received" [Address; Address; U256; U256; Bytes].
Definition BATCH_TRANSFER_FN_SELECTOR : Z :=
  function_selector "onERC1155BatchReceived" [Address; Address; Vec U256; Vec U256; Bytes].
