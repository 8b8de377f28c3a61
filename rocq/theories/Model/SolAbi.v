(** Model of the [sol!] declarations of events and errors of the library and of their
    encoding: the logs that [evm::log] writes and the bytes that a call reverts with.

    The encoders are generated by alloy's [sol!] and by [#[derive(SolidityError)]], which are
    not part of the repository; modelled here is the Solidity ABI they implement (indexed
    parameters of static types only, as occur). A variant that holds [call::Error] is encoded
    as the data that the failed call returned, as the comments in the code say. *)
From Verif.Base Require Import Prelude Bytes Keccak.
From Coq Require Import String List.
From Verif.Model Require Introspection Erc20 Erc721 Erc1155 Ownable Ownable2Step AccessControl Pausable
  Nonces Ecdsa Permit FlashMint SafeErc20 Wrapper Erc20World Erc4626 Erc2981 Checkpoints Consecutive
  Enumerable Vesting Wrapper721 Erc20Example.
Import Introspection.
#[global] Open Scope Z_scope.
Local Open Scope string_scope.
Local Open Scope list_scope.
Local Open Scope Z_scope.

(** * ABI encoding of a list of values *)
Inductive val := Word (v : Z) | Words (l : list Z) (* uint256[] *) | Octets (l : list Z) (* string *).
Definition tail_of (a : val) : list Z :=
  match a with
  | Word _ => []
  | Words l => word (Z.of_nat (length l)) ++ flat_map word l
  | Octets l => word (Z.of_nat (length l)) ++ l ++ repeat 0 ((32 - length l mod 32) mod 32)%nat
  end.
Fixpoint heads (off : Z) (l : list val) : list Z :=
  match l with
  | [] => []
  | Word v :: l' => word v ++ heads off l'
  | a :: l' => word off ++ heads (off + Z.of_nat (length (tail_of a))) l'
  end.
Definition abi_params (l : list val) : list Z := heads (32 * Z.of_nat (length l)) l ++ flat_map tail_of l.

(** * Events *)
Record raw_log := mkRaw { topics : list (list Z); data : list Z }.
Inductive param := Indexed (t : abi_type) (v : Z) | Plain (t : abi_type) (a : val).
Definition param_type (p : param) : abi_type := match p with Indexed t _ | Plain t _ => t end.
Definition evm_log (name : string) (ps : list param) : raw_log :=
  mkRaw (word (keccak256 (bytes_of_string (signature name (map param_type ps))))
         :: flat_map (fun p => match p with Indexed _ v => [word v] | Plain _ _ => [] end) ps)
        (abi_params (flat_map (fun p => match p with Indexed _ _ => [] | Plain _ a => [a] end) ps)).
Definition of_bool (b : bool) : Z := if b then 1 else 0.
Definition addr (v : Z) : param := Indexed Address v.
Definition uint (v : Z) : param := Plain U256 (Word v).

(** erc20/mod.rs:39-44 *)
Definition log_erc20 (e : Erc20.event) : raw_log :=
  match e with
  | Erc20.Transfer from to value => evm_log "Transfer" [addr from; addr to; uint value]
  | Erc20.Approval owner spender value => evm_log "Approval" [addr owner; addr spender; uint value]
  end.
(** erc721/mod.rs:41-70 *)
Definition log_erc721 (e : Erc721.event) : raw_log :=
  match e with
  | Erc721.Transfer from to token_id => evm_log "Transfer" [addr from; addr to; Indexed U256 token_id]
  | Erc721.Approval owner approved token_id => evm_log "Approval" [addr owner; addr approved; Indexed U256 token_id]
  | Erc721.ApprovalForAll owner operator approved =>
      evm_log "ApprovalForAll" [addr owner; addr operator; Plain bool_ (Word (of_bool approved))]
  end.
(** erc1155/mod.rs:54-82 *)
Definition log_erc1155 (e : Erc1155.event) : raw_log :=
  match e with
  | Erc1155.TransferSingle operator from to id value =>
      evm_log "TransferSingle" [addr operator; addr from; addr to; uint id; uint value]
  | Erc1155.TransferBatch operator from to ids values =>
      evm_log "TransferBatch" [addr operator; addr from; addr to; Plain (Vec U256) (Words ids); Plain (Vec U256) (Words values)]
  | Erc1155.ApprovalForAll account operator approved =>
      evm_log "ApprovalForAll" [addr account; addr operator; Plain bool_ (Word (of_bool approved))]
  end.
(** access/ownable.rs:33, ownable_two_step.rs:42-45 *)
Definition log_ownable (e : Ownable.event) : raw_log :=
  match e with Ownable.OwnershipTransferred p n => evm_log "OwnershipTransferred" [addr p; addr n] end.
Definition log_ownable_two_step (e : Ownable2Step.event) : raw_log :=
  match e with Ownable2Step.OwnershipTransferStarted p n => evm_log "OwnershipTransferStarted" [addr p; addr n] end.
(** access/control.rs:68-85 *)
Definition log_access (e : AccessControl.event) : raw_log :=
  match e with
  | AccessControl.RoleAdminChanged r p n => evm_log "RoleAdminChanged" [Indexed B256 r; Indexed B256 p; Indexed B256 n]
  | AccessControl.RoleGranted r a s => evm_log "RoleGranted" [Indexed B256 r; addr a; addr s]
  | AccessControl.RoleRevoked r a s => evm_log "RoleRevoked" [Indexed B256 r; addr a; addr s]
  end.
(** utils/pausable.rs:32-37 *)
Definition log_pausable (e : Pausable.event) : raw_log :=
  match e with
  | Pausable.Paused a => evm_log "Paused" [Plain Address (Word a)]
  | Pausable.Unpaused a => evm_log "Unpaused" [Plain Address (Word a)]
  end.
(** erc4626.rs:45-56 *)
Definition log_vault (e : Erc20World.vault_event) : raw_log :=
  match e with
  | Erc20World.Deposit sender owner assets shares => evm_log "Deposit" [addr sender; addr owner; uint assets; uint shares]
  | Erc20World.Withdraw sender receiver owner assets shares =>
      evm_log "Withdraw" [addr sender; addr receiver; addr owner; uint assets; uint shares]
  end.
(** finance/vesting_wallet.rs:63-71 *)
Definition log_vesting (e : Vesting.event) : raw_log :=
  match e with
  | Vesting.EtherReleased amount => evm_log "EtherReleased" [uint amount]
  | Vesting.ERC20Released token amount => evm_log "ERC20Released" [addr token; uint amount]
  end.
(** erc721/extensions/consecutive.rs:73-78 *)
Definition log_consecutive (e : Consecutive.event) : raw_log :=
  match e with
  | Consecutive.ConsecutiveTransfer from_token_id to_token_id from_address to_address =>
      evm_log "ConsecutiveTransfer" [Indexed U256 from_token_id; uint to_token_id; addr from_address; addr to_address]
  end.
(** erc721/extensions/uri_storage.rs:26, 59; erc1155/extensions/metadata_uri.rs:29 *)
Definition log_metadata_update (token_id : Z) : raw_log := evm_log "MetadataUpdate" [uint token_id].
Definition log_uri (value : list Z) (id : Z) : raw_log := evm_log "URI" [Plain String_ (Octets value); Indexed U256 id].

(** * Errors *)
Definition sol_error (name : string) (args : list (abi_type * Z)) : list Z :=
  be_bytes 4 (function_selector name (map fst args)) ++ flat_map (fun a => word (snd a)) args.
Definition a_ (v : Z) := (Address, v).
Definition u_ (v : Z) := (U256, v).

(** erc20/mod.rs:56-95, 104-121 *)
Definition revert_erc20 (e : Erc20.error) : list Z :=
  match e with
  | Erc20.InsufficientBalance sender balance needed => sol_error "ERC20InsufficientBalance" [a_ sender; u_ balance; u_ needed]
  | Erc20.InvalidSender sender => sol_error "ERC20InvalidSender" [a_ sender]
  | Erc20.InvalidReceiver receiver => sol_error "ERC20InvalidReceiver" [a_ receiver]
  | Erc20.InsufficientAllowance spender allowance needed => sol_error "ERC20InsufficientAllowance" [a_ spender; u_ allowance; u_ needed]
  | Erc20.InvalidSpender spender => sol_error "ERC20InvalidSpender" [a_ spender]
  | Erc20.InvalidApprover approver => sol_error "ERC20InvalidApprover" [a_ approver]
  end.
(** erc721/mod.rs:81-138, 146-178 *)
Definition revert_erc721 (e : Erc721.error) : list Z :=
  match e with
  | Erc721.InvalidOwner owner => sol_error "ERC721InvalidOwner" [a_ owner]
  | Erc721.NonexistentToken token_id => sol_error "ERC721NonexistentToken" [u_ token_id]
  | Erc721.IncorrectOwner sender token_id owner => sol_error "ERC721IncorrectOwner" [a_ sender; u_ token_id; a_ owner]
  | Erc721.InvalidSender sender => sol_error "ERC721InvalidSender" [a_ sender]
  | Erc721.InvalidReceiver receiver => sol_error "ERC721InvalidReceiver" [a_ receiver]
  | Erc721.InvalidReceiverWithReason reason => reason
  | Erc721.InsufficientApproval operator token_id => sol_error "ERC721InsufficientApproval" [a_ operator; u_ token_id]
  | Erc721.InvalidApprover approver => sol_error "ERC721InvalidApprover" [a_ approver]
  | Erc721.InvalidOperator operator => sol_error "ERC721InvalidOperator" [a_ operator]
  end.
(** erc1155/mod.rs:95-153, 161-191 *)
Definition revert_erc1155 (e : Erc1155.error) : list Z :=
  match e with
  | Erc1155.InsufficientBalance sender balance needed token_id =>
      sol_error "ERC1155InsufficientBalance" [a_ sender; u_ balance; u_ needed; u_ token_id]
  | Erc1155.InvalidSender sender => sol_error "ERC1155InvalidSender" [a_ sender]
  | Erc1155.InvalidReceiver receiver => sol_error "ERC1155InvalidReceiver" [a_ receiver]
  | Erc1155.InvalidReceiverWithReason reason => reason
  | Erc1155.MissingApprovalForAll operator owner => sol_error "ERC1155MissingApprovalForAll" [a_ operator; a_ owner]
  | Erc1155.InvalidOperator operator => sol_error "ERC1155InvalidOperator" [a_ operator]
  | Erc1155.InvalidArrayLength ids_length values_length => sol_error "ERC1155InvalidArrayLength" [u_ ids_length; u_ values_length]
  end.
(** access/ownable.rs:42-58 *)
Definition revert_ownable (e : Ownable.error) : list Z :=
  match e with
  | Ownable.UnauthorizedAccount account => sol_error "OwnableUnauthorizedAccount" [a_ account]
  | Ownable.InvalidOwner owner => sol_error "OwnableInvalidOwner" [a_ owner]
  end.
(** access/control.rs:95-113 *)
Definition revert_access (e : AccessControl.error) : list Z :=
  match e with
  | AccessControl.UnauthorizedAccount account needed_role =>
      sol_error "AccessControlUnauthorizedAccount" [a_ account; (B256, needed_role)]
  | AccessControl.BadConfirmation => sol_error "AccessControlBadConfirmation" []
  end.
(** utils/pausable.rs:45-64, utils/nonces.rs:27-36, utils/structs/checkpoints/mod.rs:35-44 *)
Definition revert_pausable (e : Pausable.error) : list Z :=
  match e with
  | Pausable.EnforcedPause => sol_error "EnforcedPause" []
  | Pausable.ExpectedPause => sol_error "ExpectedPause" []
  end.
Definition revert_nonces (e : Nonces.error) : list Z :=
  match e with Nonces.InvalidAccountNonce account current_nonce => sol_error "InvalidAccountNonce" [a_ account; u_ current_nonce] end.
Definition revert_checkpoints (e : Checkpoints.error) : list Z :=
  match e with Checkpoints.CheckpointUnorderedInsertion => sol_error "CheckpointUnorderedInsertion" [] end.
(** utils/cryptography/ecdsa.rs:34-67 *)
Definition revert_ecdsa (e : Ecdsa.error) : list Z :=
  match e with
  | Ecdsa.InvalidSignature => sol_error "ECDSAInvalidSignature" []
  | Ecdsa.InvalidSignatureS s => sol_error "ECDSAInvalidSignatureS" [(B256, s)]
  end.
(** erc20/extensions/permit.rs:48-69 *)
Definition revert_permit (e : Permit.error) : list Z :=
  match e with
  | Permit.ExpiredSignature deadline => sol_error "ERC2612ExpiredSignature" [u_ deadline]
  | Permit.InvalidSigner signer owner => sol_error "ERC2612InvalidSigner" [a_ signer; a_ owner]
  | Permit.Erc20Error e => revert_erc20 e
  | Permit.ECDSA e => revert_ecdsa e
  | Permit.NonceError e => revert_nonces e
  end.
(** erc20/extensions/flash_mint.rs:52-82 *)
Definition revert_flash_mint (e : FlashMint.error) : list Z :=
  match e with
  | FlashMint.UnsupportedToken token => sol_error "ERC3156UnsupportedToken" [a_ token]
  | FlashMint.ExceededMaxLoan max_loan => sol_error "ERC3156ExceededMaxLoan" [u_ max_loan]
  | FlashMint.InvalidReceiver receiver => sol_error "ERC3156InvalidReceiver" [a_ receiver]
  | FlashMint.ErrErc20 e => revert_erc20 e
  end.
(** erc20/utils/safe_erc20.rs:43-69 *)
Definition revert_safe_erc20 (e : SafeErc20.error) : list Z :=
  match e with
  | SafeErc20.SafeErc20FailedOperation token => sol_error "SafeErc20FailedOperation" [a_ token]
  | SafeErc20.SafeErc20FailedDecreaseAllowance spender current requested =>
      sol_error "SafeErc20FailedDecreaseAllowance" [a_ spender; u_ current; u_ requested]
  end.
(** erc20/extensions/wrapper.rs:44-79 *)
Definition revert_wrapper (e : Wrapper.error) : list Z :=
  match e with
  | Wrapper.ErrErc20 e => revert_erc20 e
  | Wrapper.ErrSafeErc20 e => revert_safe_erc20 e
  | Wrapper.InvalidSender sender => sol_error "ERC20InvalidSender" [a_ sender]
  | Wrapper.InvalidReceiver receiver => sol_error "ERC20InvalidReceiver" [a_ receiver]
  | Wrapper.InvalidUnderlying token => sol_error "ERC20InvalidUnderlying" [a_ token]
  end.
(** erc20/extensions/erc4626.rs:68-130 *)
Definition revert_erc4626 (e : Erc4626.error) : list Z :=
  match e with
  | Erc4626.ExceededMaxDeposit receiver assets max => sol_error "ERC4626ExceededMaxDeposit" [a_ receiver; u_ assets; u_ max]
  | Erc4626.ExceededMaxMint receiver shares max => sol_error "ERC4626ExceededMaxMint" [a_ receiver; u_ shares; u_ max]
  | Erc4626.ExceededMaxWithdraw owner assets max => sol_error "ERC4626ExceededMaxWithdraw" [a_ owner; u_ assets; u_ max]
  | Erc4626.ExceededMaxRedeem owner shares max => sol_error "ERC4626ExceededMaxRedeem" [a_ owner; u_ shares; u_ max]
  | Erc4626.InvalidAsset asset => sol_error "InvalidAsset" [a_ asset]
  | Erc4626.ErrSafeErc20 e => revert_safe_erc20 e
  | Erc4626.ErrErc20 e => revert_erc20 e
  end.
(** finance/vesting_wallet.rs:71-101: [ReleaseEtherFailed] wraps the call's error, which stands
    for the bytes the payee reverted with (call::Error as MethodError); the declared Solidity
    error [ReleaseEtherFailed()] is never used. The last case is not an error of the wallet. *)
Definition revert_vesting (e : Vesting.error) : list Z :=
  match e with
  | Vesting.ErrOwnable e => revert_ownable e
  | Vesting.ReleaseEtherFailed data => data
  | Vesting.ErrSafeErc20 e => revert_safe_erc20 e
  | Vesting.InvalidToken token => sol_error "InvalidToken" [a_ token]
  | Vesting.CallbackReverted data => data
  end.
(** common/erc2981.rs:51-97 *)
Definition revert_erc2981 (e : Erc2981.error) : list Z :=
  match e with
  | Erc2981.InvalidDefaultRoyalty numerator denominator => sol_error "ERC2981InvalidDefaultRoyalty" [u_ numerator; u_ denominator]
  | Erc2981.InvalidDefaultRoyaltyReceiver receiver => sol_error "ERC2981InvalidDefaultRoyaltyReceiver" [a_ receiver]
  | Erc2981.InvalidTokenRoyalty token_id numerator denominator =>
      sol_error "ERC2981InvalidTokenRoyalty" [u_ token_id; u_ numerator; u_ denominator]
  | Erc2981.InvalidTokenRoyaltyReceiver token_id receiver => sol_error "ERC2981InvalidTokenRoyaltyReceiver" [u_ token_id; a_ receiver]
  end.
(** erc721/extensions/consecutive.rs:87-123 (the variants that are raised), enumerable.rs:40-61 *)
Definition revert_consecutive (e : Consecutive.error) : list Z :=
  match e with
  | Consecutive.ErrErc721 e => revert_erc721 e
  | Consecutive.ErrCheckpoints e => revert_checkpoints e
  | Consecutive.ExceededMaxBatchMint batch_size max_batch => sol_error "ERC721ExceededMaxBatchMint" [u_ batch_size; u_ max_batch]
  end.
Definition revert_enumerable (e : Enumerable.error) : list Z :=
  match e with
  | Enumerable.OutOfBoundsIndex owner index => sol_error "ERC721OutOfBoundsIndex" [a_ owner; u_ index]
  | Enumerable.ForbiddenBatchMint => sol_error "ERC721EnumerableForbiddenBatchMint" []
  end.
(** erc20/extensions/capped.rs:23, as used in examples/erc20/src/lib.rs *)
Definition revert_erc20_example (e : Erc20Example.error) : list Z :=
  match e with
  | Erc20Example.ExceededCap increased_supply cap => sol_error "ERC20ExceededCap" [u_ increased_supply; u_ cap]
  | Erc20Example.Erc20Error e => revert_erc20 e
  | Erc20Example.PausableError e => revert_pausable e
  end.
