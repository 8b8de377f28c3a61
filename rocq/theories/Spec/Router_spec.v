(** What callers of the shipped contracts expect: Solidity signatures, their published
    selectors, and the function that should answer. *)
From Verif.Base Require Import Prelude Keccak.
From Coq Require Import String.
From Verif.Model Require Router.
#[global] Open Scope Z_scope.
Local Open Scope string_scope.
Local Open Scope list_scope.
Local Open Scope Z_scope.

(** The first four bytes of the hash of a signature. *)
Definition sig_selector (s : string) : Z := keccak256 (bytes_of_string s) / 2 ^ 224.
(** Signature, and the type and Rust name of the function meant. *)
Definition abi := list (string * (string * string)).

(** Selectors as published in the standards and in the Solidity contracts of the same name. *)
Definition published : list (string * Z) :=
  [(* ERC-20, metadata *)
   ("totalSupply()", 0x18160ddd); ("balanceOf(address)", 0x70a08231); ("transfer(address,uint256)", 0xa9059cbb);
   ("allowance(address,address)", 0xdd62ed3e); ("approve(address,uint256)", 0x095ea7b3);
   ("transferFrom(address,address,uint256)", 0x23b872dd); ("name()", 0x06fdde03); ("symbol()", 0x95d89b41);
   ("decimals()", 0x313ce567);
   (* burnable, mintable, capped, pausable *)
   ("burn(uint256)", 0x42966c68); ("burnFrom(address,uint256)", 0x79cc6790); ("mint(address,uint256)", 0x40c10f19);
   ("cap()", 0x355274ea); ("paused()", 0x5c975abb); ("pause()", 0x8456cb59); ("unpause()", 0x3f4ba83a);
   (* ERC-2612 *)
   ("permit(address,address,uint256,uint256,uint8,bytes32,bytes32)", 0xd505accf); ("nonces(address)", 0x7ecebe00);
   ("DOMAIN_SEPARATOR()", 0x3644e515);
   (* ERC-3156 *)
   ("maxFlashLoan(address)", 0x613255ab); ("flashFee(address,uint256)", 0xd9d98ce4);
   ("flashLoan(address,address,uint256,bytes)", 0x5cffe9de);
   (* wrappers *)
   ("underlying()", 0x6f307dc3); ("depositFor(address,uint256)", 0x2f4f21e2); ("withdrawTo(address,uint256)", 0x205c2878);
   (* ERC-4626 *)
   ("asset()", 0x38d52e0f); ("totalAssets()", 0x01e1d114); ("convertToShares(uint256)", 0xc6e6f592);
   ("convertToAssets(uint256)", 0x07a2d13a); ("maxDeposit(address)", 0x402d267d); ("previewDeposit(uint256)", 0xef8b30f7);
   ("deposit(uint256,address)", 0x6e553f65); ("maxMint(address)", 0xc63d75b6); ("previewMint(uint256)", 0xb3d7f6b9);
   ("mint(uint256,address)", 0x94bf804d); ("maxWithdraw(address)", 0xce96cb77); ("previewWithdraw(uint256)", 0x0a28a477);
   ("withdraw(uint256,address,address)", 0xb460af94); ("maxRedeem(address)", 0xd905777e);
   ("previewRedeem(uint256)", 0x4cdad506); ("redeem(uint256,address,address)", 0xba087652);
   (* ERC-721, metadata, enumeration *)
   ("ownerOf(uint256)", 0x6352211e); ("safeTransferFrom(address,address,uint256)", 0x42842e0e);
   ("safeTransferFrom(address,address,uint256,bytes)", 0xb88d4fde); ("setApprovalForAll(address,bool)", 0xa22cb465);
   ("getApproved(uint256)", 0x081812fc); ("isApprovedForAll(address,address)", 0xe985e9c5); ("tokenURI(uint256)", 0xc87b56dd);
   ("tokenOfOwnerByIndex(address,uint256)", 0x2f745c59); ("tokenByIndex(uint256)", 0x4f6ccce7);
   ("onERC721Received(address,address,uint256,bytes)", 0x150b7a02);
   (* ERC-1155 *)
   ("balanceOf(address,uint256)", 0x00fdd58e); ("balanceOfBatch(address[],uint256[])", 0x4e1273f4);
   ("safeTransferFrom(address,address,uint256,uint256,bytes)", 0xf242432a);
   ("safeBatchTransferFrom(address,address,uint256[],uint256[],bytes)", 0x2eb2c2d6); ("uri(uint256)", 0x0e89341c);
   ("totalSupply(uint256)", 0xbd85b039); ("exists(uint256)", 0x4f558e79);
   (* ERC-165, ERC-2981 *)
   ("supportsInterface(bytes4)", 0x01ffc9a7); ("royaltyInfo(uint256,uint256)", 0x2a55205a);
   (* ownership, roles *)
   ("owner()", 0x8da5cb5b); ("transferOwnership(address)", 0xf2fde38b); ("renounceOwnership()", 0x715018a6);
   ("pendingOwner()", 0xe30c3978); ("acceptOwnership()", 0x79ba5097); ("hasRole(bytes32,address)", 0x91d14854);
   ("getRoleAdmin(bytes32)", 0x248a9ca3); ("grantRole(bytes32,address)", 0x2f2ff15d);
   ("revokeRole(bytes32,address)", 0xd547741f); ("renounceRole(bytes32,address)", 0x36568abe);
   (* vesting *)
   ("start()", 0xbe9a6555); ("duration()", 0x0fb5a6b4); ("end()", 0xefbe1c1c); ("released()", 0x96132521);
   ("released(address)", 0x9852595c); ("releasable()", 0xfbccedae); ("releasable(address)", 0xa3f8eace);
   ("release()", 0x86d1a69f); ("release(address)", 0x19165587); ("vestedAmount(uint64)", 0x0a17b06b);
   ("vestedAmount(address,uint64)", 0x810ec23b)].

Definition erc20_abi (transfer transfer_from : string) : abi :=
  [("totalSupply()", ("Erc20", "total_supply")); ("balanceOf(address)", ("Erc20", "balance_of"));
   ("transfer(address,uint256)", (transfer, "transfer")); ("allowance(address,address)", ("Erc20", "allowance"));
   ("approve(address,uint256)", ("Erc20", "approve"));
   ("transferFrom(address,address,uint256)", (transfer_from, "transfer_from"))].
Definition erc20_metadata_abi (decimals : string) : abi :=
  [("name()", ("Erc20Metadata", "name")); ("symbol()", ("Erc20Metadata", "symbol")); ("decimals()", (decimals, "decimals"))].
Definition pausable_abi (t : string) : abi :=
  [("paused()", ("Pausable", "paused")); ("pause()", (t, "pause")); ("unpause()", (t, "unpause"))].
(** [t]: the views and approvals, [u]: the transfers *)
Definition erc721_abi (t u : string) : abi :=
  [("balanceOf(address)", (t, "balance_of")); ("ownerOf(uint256)", (t, "owner_of"));
   ("safeTransferFrom(address,address,uint256)", (u, "safe_transfer_from"));
   ("safeTransferFrom(address,address,uint256,bytes)", (u, "safe_transfer_from_with_data"));
   ("transferFrom(address,address,uint256)", (u, "transfer_from")); ("approve(address,uint256)", (t, "approve"));
   ("setApprovalForAll(address,bool)", (t, "set_approval_for_all")); ("getApproved(uint256)", (t, "get_approved"));
   ("isApprovedForAll(address,address)", (t, "is_approved_for_all"))].
Definition erc1155_abi (t u : string) : abi :=
  [("balanceOf(address,uint256)", (t, "balance_of")); ("balanceOfBatch(address[],uint256[])", (t, "balance_of_batch"));
   ("setApprovalForAll(address,bool)", (t, "set_approval_for_all"));
   ("isApprovedForAll(address,address)", (t, "is_approved_for_all"));
   ("safeTransferFrom(address,address,uint256,uint256,bytes)", (u, "safe_transfer_from"));
   ("safeBatchTransferFrom(address,address,uint256[],uint256[],bytes)", (u, "safe_batch_transfer_from"))].
Definition erc165_abi (t : string) : abi := [("supportsInterface(bytes4)", (t, "supports_interface"))].
Definition ownable_abi (t : string) : abi :=
  [("owner()", (t, "owner")); ("transferOwnership(address)", (t, "transfer_ownership"));
   ("renounceOwnership()", (t, "renounce_ownership"))].
Definition access_control_abi : abi :=
  [("hasRole(bytes32,address)", ("AccessControl", "has_role")); ("getRoleAdmin(bytes32)", ("AccessControl", "get_role_admin"));
   ("grantRole(bytes32,address)", ("AccessControl", "grant_role")); ("revokeRole(bytes32,address)", ("AccessControl", "revoke_role"));
   ("renounceRole(bytes32,address)", ("AccessControl", "renounce_role"))].

(** *** The examples *)
Definition Erc20Example : abi :=
  erc20_abi "Erc20Example" "Erc20Example" ++ erc20_metadata_abi "Erc20Example" ++ pausable_abi "Erc20Example" ++
  erc165_abi "Erc20Example" ++
  [("cap()", ("Capped", "cap")); ("burn(uint256)", ("Erc20Example", "burn"));
   ("burnFrom(address,uint256)", ("Erc20Example", "burn_from")); ("mint(address,uint256)", ("Erc20Example", "mint"))].
Definition Erc20PermitExample : abi :=
  erc20_abi "Erc20" "Erc20" ++
  [("mint(address,uint256)", ("Erc20PermitExample", "mint"));
   ("permit(address,address,uint256,uint256,uint8,bytes32,bytes32)", ("Erc20PermitExample", "permit"));
   ("nonces(address)", ("Nonces", "nonces")); ("DOMAIN_SEPARATOR()", ("Erc20Permit", "domain_separator"))].
Definition Erc20FlashMintExample : abi :=
  erc20_abi "Erc20" "Erc20" ++
  [("maxFlashLoan(address)", ("Erc20FlashMintExample", "max_flash_loan"));
   ("flashFee(address,uint256)", ("Erc20FlashMintExample", "flash_fee"));
   ("flashLoan(address,address,uint256,bytes)", ("Erc20FlashMintExample", "flash_loan"));
   ("mint(address,uint256)", ("Erc20FlashMintExample", "mint"))].
Definition Erc20WrapperExample : abi :=
  erc20_abi "Erc20" "Erc20" ++
  [("underlying()", ("Erc20WrapperExample", "underlying")); ("decimals()", ("Erc20WrapperExample", "decimals"));
   ("depositFor(address,uint256)", ("Erc20WrapperExample", "deposit_for"));
   ("withdrawTo(address,uint256)", ("Erc20WrapperExample", "withdraw_to"))].
Definition Erc4626Example : abi :=
  let t := "Erc4626Example" in
  erc20_abi "Erc20" "Erc20" ++ erc20_metadata_abi t ++
  [("asset()", (t, "asset")); ("totalAssets()", (t, "total_assets")); ("convertToShares(uint256)", (t, "convert_to_shares"));
   ("convertToAssets(uint256)", (t, "convert_to_assets")); ("maxDeposit(address)", (t, "max_deposit"));
   ("previewDeposit(uint256)", (t, "preview_deposit")); ("deposit(uint256,address)", (t, "deposit"));
   ("maxMint(address)", (t, "max_mint")); ("previewMint(uint256)", (t, "preview_mint"));
   ("mint(uint256,address)", (t, "mint")); ("maxWithdraw(address)", (t, "max_withdraw"));
   ("previewWithdraw(uint256)", (t, "preview_withdraw")); ("withdraw(uint256,address,address)", (t, "withdraw"));
   ("maxRedeem(address)", (t, "max_redeem")); ("previewRedeem(uint256)", (t, "preview_redeem"));
   ("redeem(uint256,address,address)", (t, "redeem"))].
Definition Erc721Example : abi :=
  let t := "Erc721Example" in
  erc721_abi "Erc721" t ++ pausable_abi t ++ erc165_abi t ++
  [("totalSupply()", ("Erc721Enumerable", "total_supply"));
   ("tokenOfOwnerByIndex(address,uint256)", ("Erc721Enumerable", "token_of_owner_by_index"));
   ("tokenByIndex(uint256)", ("Erc721Enumerable", "token_by_index"));
   ("burn(uint256)", (t, "burn")); ("mint(address,uint256)", (t, "mint")); ("safeMint(address,uint256,bytes)", (t, "safe_mint"))].
Definition Erc721MetadataExample : abi :=
  let t := "Erc721MetadataExample" in
  erc721_abi "Erc721" "Erc721" ++ erc165_abi t ++
  [("name()", ("Erc721Metadata", "name")); ("symbol()", ("Erc721Metadata", "symbol")); ("tokenURI(uint256)", (t, "token_uri"));
   ("setTokenURI(uint256,string)", (t, "set_token_uri")); ("mint(address,uint256)", (t, "mint")); ("burn(uint256)", (t, "burn"))].
Definition Erc721ConsecutiveExample : abi :=
  let t := "Erc721ConsecutiveExample" in
  erc721_abi "Erc721Consecutive" "Erc721Consecutive" ++ erc165_abi t ++
  [("mint(address,uint256)", (t, "mint")); ("burn(uint256)", (t, "burn"))].
(** with the receiver's hook of ERC-721, by which tokens are wrapped on arrival *)
Definition Erc721WrapperExample : abi :=
  let t := "Erc721WrapperExample" in
  erc721_abi "Erc721" "Erc721" ++
  [("underlying()", (t, "underlying")); ("depositFor(address,uint256[])", (t, "deposit_for"));
   ("withdrawTo(address,uint256[])", (t, "withdraw_to"));
   ("onERC721Received(address,address,uint256,bytes)", (t, "on_erc721_received"))].
Definition Erc1155Example : abi :=
  let t := "Erc1155Example" in
  erc1155_abi "Erc1155" t ++ pausable_abi t ++ erc165_abi t ++
  [("mint(address,uint256,uint256,bytes)", (t, "mint")); ("mintBatch(address,uint256[],uint256[],bytes)", (t, "mint_batch"));
   ("burn(address,uint256,uint256)", (t, "burn")); ("burnBatch(address,uint256[],uint256[])", (t, "burn_batch"))].
Definition Erc1155SupplyExample : abi :=
  let t := "Erc1155Example" in
  erc1155_abi "Erc1155Supply" "Erc1155Supply" ++ erc165_abi t ++
  [("totalSupply(uint256)", (t, "total_supply")); ("totalSupply()", (t, "total_supply_all")); ("exists(uint256)", (t, "exists"));
   ("mint(address,uint256,uint256,bytes)", (t, "mint")); ("mintBatch(address,uint256[],uint256[],bytes)", (t, "mint_batch"));
   ("burn(address,uint256,uint256)", (t, "burn")); ("burnBatch(address,uint256[],uint256[])", (t, "burn_batch"))].
Definition Erc1155MetadataUriExample : abi :=
  let t := "Erc1155MetadataUriExample" in
  erc1155_abi "Erc1155" "Erc1155" ++ erc165_abi t ++
  [("uri(uint256)", (t, "uri")); ("setTokenURI(uint256,string)", (t, "set_token_uri")); ("setBaseURI(string)", (t, "set_base_uri"))].
Definition OwnableExample : abi :=
  erc20_abi "OwnableExample" "Erc20" ++ ownable_abi "Ownable".
Definition Ownable2StepExample : abi :=
  erc20_abi "Ownable2StepExample" "Erc20" ++ ownable_abi "Ownable2Step" ++
  [("pendingOwner()", ("Ownable2Step", "pending_owner")); ("acceptOwnership()", ("Ownable2Step", "accept_ownership"))].
(** [onlyRole] is the guard, which is callable as well. *)
Definition AccessControlExample : abi :=
  let t := "AccessControlExample" in
  erc20_abi "Erc20" t ++ access_control_abi ++
  [("onlyRole(bytes32)", ("AccessControl", "only_role"));
   ("makeAdmin(address)", (t, "make_admin")); ("setRoleAdmin(bytes32,bytes32)", (t, "set_role_admin"))].
Definition VestingWalletExample : abi :=
  let t := "VestingWallet" in
  ownable_abi t ++
  [("start()", (t, "start")); ("duration()", (t, "duration")); ("end()", (t, "end")); ("released()", (t, "released_eth"));
   ("released(address)", (t, "released_erc20")); ("releasable()", (t, "releasable_eth"));
   ("releasable(address)", (t, "releasable_erc20")); ("release()", (t, "release_eth")); ("release(address)", (t, "release_erc20"));
   ("vestedAmount(uint64)", (t, "vested_amount_eth")); ("vestedAmount(address,uint64)", (t, "vested_amount_erc20"))].
Definition SafeErc20Example : abi :=
  let t := "SafeErc20" in
  [("safeTransfer(address,address,uint256)", (t, "safe_transfer"));
   ("safeTransferFrom(address,address,address,uint256)", (t, "safe_transfer_from"));
   ("safeIncreaseAllowance(address,address,uint256)", (t, "safe_increase_allowance"));
   ("safeDecreaseAllowance(address,address,uint256)", (t, "safe_decrease_allowance"));
   ("forceApprove(address,address,uint256)", (t, "force_approve"))].
Definition ECDSAExample : abi := [("recover(bytes32,uint8,bytes32,bytes32)", ("ECDSAExample", "recover"))].
Definition VerifierContract : abi :=
  [("verify(bytes32[],bytes32,bytes32)", ("VerifierContract", "verify"));
   ("verifyMultiProof(bytes32[],bool[],bytes32,bytes32[])", ("VerifierContract", "verify_multi_proof"))].
Definition PoseidonExample : abi := [("hash(uint256[2])", ("PoseidonExample", "hash"))].

(** * What is to be proved *)
(** A contract answers exactly the signatures of a table, each with the function given there. *)
Definition dispatches (bs : list Router.block) (t : abi) : Prop :=
  forall sel r, Router.route bs sel = Some r <-> exists s, In (s, r) t /\ sig_selector s = sel.
(** Different signatures of a table have different selectors. *)
Definition distinct_selectors (t : abi) : Prop := NoDup (map (fun x => sig_selector (fst x)) t).
(** The examples with their tables, all but the ERC-721 wrapper. *)
Definition examples : list (list Router.block * abi) :=
  [(Router.Pub.Erc20Example, Erc20Example); (Router.Pub.Erc20PermitExample, Erc20PermitExample);
   (Router.Pub.Erc20FlashMintExample, Erc20FlashMintExample); (Router.Pub.Erc20WrapperExample, Erc20WrapperExample);
   (Router.Pub.Erc4626Example, Erc4626Example); (Router.Pub.Erc721Example, Erc721Example);
   (Router.Pub.Erc721MetadataExample, Erc721MetadataExample); (Router.Pub.Erc721ConsecutiveExample, Erc721ConsecutiveExample);
   (Router.Pub.Erc1155Example, Erc1155Example); (Router.Pub.Erc1155SupplyExample, Erc1155SupplyExample);
   (Router.Pub.Erc1155MetadataUriExample, Erc1155MetadataUriExample); (Router.Pub.OwnableExample, OwnableExample);
   (Router.Pub.Ownable2StepExample, Ownable2StepExample); (Router.Pub.AccessControlExample, AccessControlExample);
   (Router.Pub.VestingWalletExample, VestingWalletExample); (Router.Pub.SafeErc20Example, SafeErc20Example);
   (Router.Pub.ECDSAExample, ECDSAExample); (Router.Pub.VerifierContract, VerifierContract); (Router.Pub.PoseidonExample, PoseidonExample)].
