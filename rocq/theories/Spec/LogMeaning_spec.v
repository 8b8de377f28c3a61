(** What the events and errors of the library mean to readers outside the chain. *)
From Verif.Base Require Import Prelude.
From Verif.Model Require Erc20 Erc721 Erc1155 Ownable Ownable2Step AccessControl Pausable Nonces Ecdsa Permit FlashMint
  SafeErc20 Wrapper Erc20World Erc4626 Erc2981 Checkpoints Consecutive Enumerable Vesting Erc20Example SolAbi.
From Verif.Spec Require Import SolAbi_spec.
#[global] Open Scope Z_scope.

(** * Events *)
Definition means_erc20 (e : Erc20.event) : decoded :=
  match e with Erc20.Transfer f t v => FungibleTransfer f t v | Erc20.Approval o s v => FungibleApproval o s v end.
Definition means_erc721 (e : Erc721.event) : decoded :=
  match e with
  | Erc721.Transfer f t i => NftTransfer f t i
  | Erc721.Approval o a i => NftApproval o a i
  | Erc721.ApprovalForAll o p b => OperatorApproval o p b
  end.
Definition means_erc1155 (e : Erc1155.event) : decoded :=
  match e with
  | Erc1155.TransferSingle o f t i v => MultiTransfer o f t [i] [v]
  | Erc1155.TransferBatch o f t is vs => MultiTransfer o f t is vs
  | Erc1155.ApprovalForAll o p b => OperatorApproval o p b
  end.
Definition means_ownable (e : Ownable.event) : decoded :=
  match e with Ownable.OwnershipTransferred p n => OwnerChanged p n end.
Definition means_ownable_two_step (e : Ownable2Step.event) : decoded :=
  match e with Ownable2Step.OwnershipTransferStarted p n => OwnerProposed p n end.
Definition means_access (e : AccessControl.event) : decoded :=
  match e with
  | AccessControl.RoleAdminChanged r p n => AdminRoleChanged r p n
  | AccessControl.RoleGranted r a s => RoleGiven r a s
  | AccessControl.RoleRevoked r a s => RoleTaken r a s
  end.
Definition means_pausable (e : Pausable.event) : decoded :=
  match e with Pausable.Paused a => PausedBy a | Pausable.Unpaused a => UnpausedBy a end.
Definition means_vault (e : Erc20World.vault_event) : decoded :=
  match e with
  | Erc20World.Deposit s o a sh => Deposited s o a sh
  | Erc20World.Withdraw s r o a sh => Withdrawn s r o a sh
  end.
Definition means_vesting (e : Vesting.event) : decoded :=
  match e with Vesting.EtherReleased a => EtherPaid a | Vesting.ERC20Released t a => TokenPaid t a end.
Definition means_consecutive (e : Consecutive.event) : decoded :=
  match e with Consecutive.ConsecutiveTransfer f l a b => NftRange f l a b end.

(** Numbers fit in a word, lists are shorter than 2^64. *)
Definition short {A} (l : list A) : Prop := Z.of_nat (length l) < 2 ^ 64.
Definition fits (d : decoded) : Prop :=
  match d with
  | FungibleTransfer a b c | FungibleApproval a b c | NftTransfer a b c | NftApproval a b c
  | AdminRoleChanged a b c | RoleGiven a b c | RoleTaken a b c => is_u256 a /\ is_u256 b /\ is_u256 c
  | OperatorApproval a b _ | OwnerChanged a b | OwnerProposed a b | TokenPaid a b => is_u256 a /\ is_u256 b
  | MultiTransfer a b c is vs =>
      is_u256 a /\ is_u256 b /\ is_u256 c /\ Forall is_u256 is /\ Forall is_u256 vs /\ short is /\ short vs
  | UriChanged i v => is_u256 i /\ short v
  | PausedBy a | UnpausedBy a | EtherPaid a | MetadataChanged a => is_u256 a
  | Deposited a b c d | NftRange a b c d => is_u256 a /\ is_u256 b /\ is_u256 c /\ is_u256 d
  | Withdrawn a b c d e => is_u256 a /\ is_u256 b /\ is_u256 c /\ is_u256 d /\ is_u256 e
  end.

(** The readable logs of a chain of logs. *)
Definition read_log (r : SolAbi.raw_log) : option decoded := decode (SolAbi.topics r) (SolAbi.data r).
Definition read_logs (l : list SolAbi.raw_log) : list decoded :=
  flat_map (fun r => match read_log r with Some d => [d] | None => [] end) l.

(** Inputs as the ABI delivers them: words, and lists shorter than 2^64. *)
Definition calldata_erc20 (c : Z) (o : Erc20.op) : Prop :=
  is_u256 c /\
  match o with
  | Erc20.OTransfer a v | Erc20.OApprove a v | Erc20.OBurnFrom a v | Erc20.OMint a v | Erc20.OInternalBurn a v =>
      is_u256 a /\ is_u256 v
  | Erc20.OTransferFrom a b v | Erc20.OUpdate a b v | Erc20.OSpendAllowance a b v => is_u256 a /\ is_u256 b /\ is_u256 v
  | Erc20.OBurn v => is_u256 v
  end.
Definition calldata_erc721 (c : Z) (o : Erc721.op) : Prop :=
  c <> 0 /\ is_u256 c /\
  match o with
  | Erc721.TransferFrom f t i | Erc721.SafeTransferFrom f t i _ _ _ | Erc721.ITransfer f t i | Erc721.ISafeTransfer f t i _ _ _ =>
      is_u256 f /\ is_u256 t /\ is_u256 i
  | Erc721.Approve t i | Erc721.IMint t i | Erc721.ISafeMint t i _ _ _ => is_u256 t /\ is_u256 i
  | Erc721.SetApprovalForAll p _ => is_u256 p
  | Erc721.Burn i | Erc721.IBurn i => is_u256 i
  end.
Definition calldata_batch (is vs : list Z) : Prop := Forall is_u256 is /\ Forall is_u256 vs /\ short is /\ short vs.
Definition calldata_erc1155 (c : Z) (o : Erc1155.op) : Prop :=
  c <> 0 /\ is_u256 c /\
  match o with
  | Erc1155.SafeTransferFrom f t i v _ _ _ => is_u256 f /\ is_u256 t /\ is_u256 i /\ is_u256 v
  | Erc1155.SafeBatchTransferFrom f t is vs _ _ _ => is_u256 f /\ is_u256 t /\ calldata_batch is vs
  | Erc1155.SetApprovalForAll p _ => is_u256 p
  | Erc1155.Burn a i v | Erc1155.IBurn a i v | Erc1155.IMint a i v _ _ _ => is_u256 a /\ is_u256 i /\ is_u256 v
  | Erc1155.BurnBatch a is vs | Erc1155.IBurnBatch a is vs | Erc1155.IMintBatch a is vs _ _ _ => is_u256 a /\ calldata_batch is vs
  end.
Definition calldata_access (c : Z) (o : AccessControl.op) : Prop :=
  is_u256 c /\
  match o with
  | AccessControl.OGrant r a | AccessControl.ORevoke r a | AccessControl.ORenounce r a | AccessControl.OSetRoleAdmin r a
  | AccessControl.OInternalGrant r a | AccessControl.OInternalRevoke r a => is_u256 r /\ is_u256 a
  end.

(** * Errors *)
Definition reason_erc20 (e : Erc20.error) : reason :=
  match e with
  | Erc20.InsufficientBalance a b c => ERC20InsufficientBalance a b c
  | Erc20.InvalidSender a => ERC20InvalidSender a
  | Erc20.InvalidReceiver a => ERC20InvalidReceiver a
  | Erc20.InsufficientAllowance a b c => ERC20InsufficientAllowance a b c
  | Erc20.InvalidSpender a => ERC20InvalidSpender a
  | Erc20.InvalidApprover a => ERC20InvalidApprover a
  end.
(** [None]: the data of a failed call to another contract. *)
Definition reason_erc721 (e : Erc721.error) : option reason :=
  match e with
  | Erc721.InvalidOwner a => Some (ERC721InvalidOwner a)
  | Erc721.NonexistentToken a => Some (ERC721NonexistentToken a)
  | Erc721.IncorrectOwner a b c => Some (ERC721IncorrectOwner a b c)
  | Erc721.InvalidSender a => Some (ERC721InvalidSender a)
  | Erc721.InvalidReceiver a => Some (ERC721InvalidReceiver a)
  | Erc721.InvalidReceiverWithReason _ => None
  | Erc721.InsufficientApproval a b => Some (ERC721InsufficientApproval a b)
  | Erc721.InvalidApprover a => Some (ERC721InvalidApprover a)
  | Erc721.InvalidOperator a => Some (ERC721InvalidOperator a)
  end.
Definition reason_erc1155 (e : Erc1155.error) : option reason :=
  match e with
  | Erc1155.InsufficientBalance a b c d => Some (ERC1155InsufficientBalance a b c d)
  | Erc1155.InvalidSender a => Some (ERC1155InvalidSender a)
  | Erc1155.InvalidReceiver a => Some (ERC1155InvalidReceiver a)
  | Erc1155.InvalidReceiverWithReason _ => None
  | Erc1155.MissingApprovalForAll a b => Some (ERC1155MissingApprovalForAll a b)
  | Erc1155.InvalidOperator a => Some (ERC1155InvalidOperator a)
  | Erc1155.InvalidArrayLength a b => Some (ERC1155InvalidArrayLength a b)
  end.
Definition reason_ownable (e : Ownable.error) : reason :=
  match e with
  | Ownable.UnauthorizedAccount a => OwnableUnauthorizedAccount a
  | Ownable.InvalidOwner a => OwnableInvalidOwner a
  end.
Definition reason_access (e : AccessControl.error) : reason :=
  match e with
  | AccessControl.UnauthorizedAccount a r => AccessControlUnauthorizedAccount a r
  | AccessControl.BadConfirmation => AccessControlBadConfirmation
  end.
Definition reason_pausable (e : Pausable.error) : reason :=
  match e with Pausable.EnforcedPause => EnforcedPause | Pausable.ExpectedPause => ExpectedPause end.
Definition reason_nonces (e : Nonces.error) : reason :=
  match e with Nonces.InvalidAccountNonce a n => InvalidAccountNonce a n end.
Definition reason_checkpoints (e : Checkpoints.error) : reason :=
  match e with Checkpoints.CheckpointUnorderedInsertion => CheckpointUnorderedInsertion end.
Definition reason_ecdsa (e : Ecdsa.error) : reason :=
  match e with Ecdsa.InvalidSignature => ECDSAInvalidSignature | Ecdsa.InvalidSignatureS s => ECDSAInvalidSignatureS s end.
Definition reason_permit (e : Permit.error) : reason :=
  match e with
  | Permit.ExpiredSignature d => ERC2612ExpiredSignature d
  | Permit.InvalidSigner s o => ERC2612InvalidSigner s o
  | Permit.Erc20Error e => reason_erc20 e
  | Permit.ECDSA e => reason_ecdsa e
  | Permit.NonceError e => reason_nonces e
  end.
Definition reason_flash_mint (e : FlashMint.error) : reason :=
  match e with
  | FlashMint.UnsupportedToken t => ERC3156UnsupportedToken t
  | FlashMint.ExceededMaxLoan m => ERC3156ExceededMaxLoan m
  | FlashMint.InvalidReceiver r => ERC3156InvalidReceiver r
  | FlashMint.ErrErc20 e => reason_erc20 e
  end.
Definition reason_safe_erc20 (e : SafeErc20.error) : reason :=
  match e with
  | SafeErc20.SafeErc20FailedOperation t => SafeErc20FailedOperation t
  | SafeErc20.SafeErc20FailedDecreaseAllowance s c r => SafeErc20FailedDecreaseAllowance s c r
  end.
Definition reason_wrapper (e : Wrapper.error) : reason :=
  match e with
  | Wrapper.ErrErc20 e => reason_erc20 e
  | Wrapper.ErrSafeErc20 e => reason_safe_erc20 e
  | Wrapper.InvalidSender a => ERC20InvalidSender a
  | Wrapper.InvalidReceiver a => ERC20InvalidReceiver a
  | Wrapper.InvalidUnderlying t => ERC20InvalidUnderlying t
  end.
Definition reason_erc4626 (e : Erc4626.error) : reason :=
  match e with
  | Erc4626.ExceededMaxDeposit a b c => ERC4626ExceededMaxDeposit a b c
  | Erc4626.ExceededMaxMint a b c => ERC4626ExceededMaxMint a b c
  | Erc4626.ExceededMaxWithdraw a b c => ERC4626ExceededMaxWithdraw a b c
  | Erc4626.ExceededMaxRedeem a b c => ERC4626ExceededMaxRedeem a b c
  | Erc4626.InvalidAsset a => InvalidAsset a
  | Erc4626.ErrSafeErc20 e => reason_safe_erc20 e
  | Erc4626.ErrErc20 e => reason_erc20 e
  end.
Definition reason_vesting (e : Vesting.error) : option reason :=
  match e with
  | Vesting.ErrOwnable e => Some (reason_ownable e)
  | Vesting.ErrSafeErc20 e => Some (reason_safe_erc20 e)
  | Vesting.InvalidToken t => Some (InvalidToken t)
  | Vesting.ReleaseEtherFailed _ | Vesting.CallbackReverted _ => None
  end.
Definition reason_erc2981 (e : Erc2981.error) : reason :=
  match e with
  | Erc2981.InvalidDefaultRoyalty n d => ERC2981InvalidDefaultRoyalty n d
  | Erc2981.InvalidDefaultRoyaltyReceiver r => ERC2981InvalidDefaultRoyaltyReceiver r
  | Erc2981.InvalidTokenRoyalty i n d => ERC2981InvalidTokenRoyalty i n d
  | Erc2981.InvalidTokenRoyaltyReceiver i r => ERC2981InvalidTokenRoyaltyReceiver i r
  end.
Definition reason_consecutive (e : Consecutive.error) : option reason :=
  match e with
  | Consecutive.ErrErc721 e => reason_erc721 e
  | Consecutive.ErrCheckpoints e => Some (reason_checkpoints e)
  | Consecutive.ExceededMaxBatchMint b m => Some (ERC721ExceededMaxBatchMint b m)
  end.
Definition reason_enumerable (e : Enumerable.error) : reason :=
  match e with
  | Enumerable.OutOfBoundsIndex o i => ERC721OutOfBoundsIndex o i
  | Enumerable.ForbiddenBatchMint => ERC721EnumerableForbiddenBatchMint
  end.
Definition reason_erc20_example (e : Erc20Example.error) : reason :=
  match e with
  | Erc20Example.ExceededCap i c => ERC20ExceededCap i c
  | Erc20Example.Erc20Error e => reason_erc20 e
  | Erc20Example.PausableError e => reason_pausable e
  end.
(** The numbers in a reason. *)
Definition numbers (r : reason) : list Z :=
  match r with
  | ERC20InsufficientBalance x0 x1 x2 => [x0; x1; x2]
  | ERC20InvalidSender x0 => [x0]
  | ERC20InvalidReceiver x0 => [x0]
  | ERC20InsufficientAllowance x0 x1 x2 => [x0; x1; x2]
  | ERC20InvalidSpender x0 => [x0]
  | ERC20InvalidApprover x0 => [x0]
  | ERC721InvalidOwner x0 => [x0]
  | ERC721NonexistentToken x0 => [x0]
  | ERC721IncorrectOwner x0 x1 x2 => [x0; x1; x2]
  | ERC721InvalidSender x0 => [x0]
  | ERC721InvalidReceiver x0 => [x0]
  | ERC721InsufficientApproval x0 x1 => [x0; x1]
  | ERC721InvalidApprover x0 => [x0]
  | ERC721InvalidOperator x0 => [x0]
  | ERC1155InsufficientBalance x0 x1 x2 x3 => [x0; x1; x2; x3]
  | ERC1155InvalidSender x0 => [x0]
  | ERC1155InvalidReceiver x0 => [x0]
  | ERC1155MissingApprovalForAll x0 x1 => [x0; x1]
  | ERC1155InvalidOperator x0 => [x0]
  | ERC1155InvalidArrayLength x0 x1 => [x0; x1]
  | OwnableUnauthorizedAccount x0 => [x0]
  | OwnableInvalidOwner x0 => [x0]
  | AccessControlUnauthorizedAccount x0 x1 => [x0; x1]
  | AccessControlBadConfirmation => []
  | EnforcedPause => []
  | ExpectedPause => []
  | InvalidAccountNonce x0 x1 => [x0; x1]
  | CheckpointUnorderedInsertion => []
  | ECDSAInvalidSignature => []
  | ECDSAInvalidSignatureS x0 => [x0]
  | ERC2612ExpiredSignature x0 => [x0]
  | ERC2612InvalidSigner x0 x1 => [x0; x1]
  | ERC3156UnsupportedToken x0 => [x0]
  | ERC3156ExceededMaxLoan x0 => [x0]
  | ERC3156InvalidReceiver x0 => [x0]
  | SafeErc20FailedOperation x0 => [x0]
  | SafeErc20FailedDecreaseAllowance x0 x1 x2 => [x0; x1; x2]
  | ERC20InvalidUnderlying x0 => [x0]
  | ERC20ExceededCap x0 x1 => [x0; x1]
  | ERC4626ExceededMaxDeposit x0 x1 x2 => [x0; x1; x2]
  | ERC4626ExceededMaxMint x0 x1 x2 => [x0; x1; x2]
  | ERC4626ExceededMaxWithdraw x0 x1 x2 => [x0; x1; x2]
  | ERC4626ExceededMaxRedeem x0 x1 x2 => [x0; x1; x2]
  | InvalidAsset x0 => [x0]
  | ERC2981InvalidDefaultRoyalty x0 x1 => [x0; x1]
  | ERC2981InvalidDefaultRoyaltyReceiver x0 => [x0]
  | ERC2981InvalidTokenRoyalty x0 x1 x2 => [x0; x1; x2]
  | ERC2981InvalidTokenRoyaltyReceiver x0 x1 => [x0; x1]
  | ERC721ExceededMaxBatchMint x0 x1 => [x0; x1]
  | ERC721OutOfBoundsIndex x0 x1 => [x0; x1]
  | ERC721EnumerableForbiddenBatchMint => []
  | InvalidToken x0 => [x0]
  end.
Definition reason_fits (r : reason) : Prop := Forall is_u256 (numbers r).
