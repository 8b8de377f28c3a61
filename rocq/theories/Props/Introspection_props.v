(** C70: interface identifiers. *)
From Coq Require Import String.
From Verif.Base Require Import Prelude Bytes Keccak.
From Verif.Model Require Import Introspection.
From Verif.Model Require Erc721 Erc1155.
From Verif.Spec Require Import Introspection_spec.
#[global] Open Scope Z_scope.

(** The identifiers, computed from the signatures with Keccak-256. *)
Lemma id_erc165 : interface_id IErc165 = ERC165. Proof. vm_compute. reflexivity. Qed.
Lemma id_access_control : interface_id IAccessControl = 0x0edd8b6c. Proof. vm_compute. reflexivity. Qed.
Lemma id_ownable : interface_id IOwnable = OWNABLE. Proof. vm_compute. reflexivity. Qed.
Lemma id_ownable2 : interface_id IOwnable2Step = OWNABLE_2STEP. Proof. vm_compute. reflexivity. Qed.
Lemma id_vesting : interface_id IVestingWallet = VESTING_WALLET. Proof. vm_compute. reflexivity. Qed.
Lemma id_erc2981 : interface_id IErc2981 = ERC2981. Proof. vm_compute. reflexivity. Qed.
Lemma id_uri : interface_id IErc1155MetadataUri = ERC1155_METADATA_URI. Proof. vm_compute. reflexivity. Qed.
Lemma id_supply : interface_id IErc1155Supply = ERC1155_SUPPLY. Proof. vm_compute. reflexivity. Qed.
Lemma id_erc1155 : interface_id IErc1155 = ERC1155. Proof. vm_compute. reflexivity. Qed.
Lemma id_erc20_metadata : interface_id IErc20Metadata = ERC20_METADATA. Proof. vm_compute. reflexivity. Qed.
Lemma id_erc20 : interface_id IErc20 = ERC20. Proof. vm_compute. reflexivity. Qed.
Lemma id_safe : interface_id ISafeErc20 = SAFE_ERC20. Proof. vm_compute. reflexivity. Qed.
Lemma id_enumerable : interface_id IErc721Enumerable = ERC721_ENUMERABLE. Proof. vm_compute. reflexivity. Qed.
Lemma id_erc721 : interface_id IErc721 = ERC721. Proof. vm_compute. reflexivity. Qed.
Lemma id_erc721_metadata : IErc721Metadata_INTERFACE_ID = ERC721_METADATA. Proof. vm_compute. reflexivity. Qed.
Lemma id_wrapper : IErc20Wrapper_INTERFACE_ID = ERC20_WRAPPER. Proof. vm_compute. reflexivity. Qed.
Lemma id_erc4626 : IErc4626_INTERFACE_ID = ERC4626. Proof. vm_compute. reflexivity. Qed.
Lemma id_lender : IErc3156FlashLender_INTERFACE_ID = ERC3156_LENDER. Proof. vm_compute. reflexivity. Qed.

(** The two numbers are never computed again below. *)
#[local] Opaque interface_id IErc721Metadata_INTERFACE_ID IErc20Wrapper_INTERFACE_ID IErc4626_INTERFACE_ID
  IErc3156FlashLender_INTERFACE_ID.
Ltac solve_ids :=
  intros b _ _;
  cbv beta delta [AccessControl Ownable Ownable2Step VestingWallet Erc2981 Erc1155 Erc1155MetadataUri
    Erc1155Supply Erc20 Erc20Metadata Erc20Wrapper Erc4626 Erc20FlashMint SafeErc20 Erc721 Erc721Consecutive
    Erc721Enumerable Erc721Metadata Erc20Example Erc721Example Erc721MetadataExample Erc721ConsecutiveExample
    Erc1155Example Erc1155SupplyExample Erc1155MetadataUriExample Erc165];
  rewrite ?id_erc165, ?id_access_control, ?id_ownable, ?id_ownable2, ?id_vesting, ?id_erc2981, ?id_uri, ?id_supply,
    ?id_erc1155, ?id_erc20_metadata, ?id_erc20, ?id_safe, ?id_enumerable, ?id_erc721, ?id_erc721_metadata,
    ?id_wrapper, ?id_erc4626, ?id_lender;
  rewrite !orb_true_iff, ?Z.eqb_eq; cbn [In]; intuition congruence.

(** Every token and extension answers yes to exactly ERC-165 and the identifier published
    for its standard; the shipped examples to exactly those of their parts. *)
Theorem c70_standard_ids :
  answers_exactly Erc165 [ERC165] /\
  answers_exactly Erc20 [ERC20; ERC165] /\
  answers_exactly Erc20Metadata [ERC20_METADATA; ERC165] /\
  answers_exactly Erc4626 [ERC4626; ERC165] /\
  answers_exactly Erc20FlashMint [ERC3156_LENDER; ERC165] /\
  answers_exactly Erc721 [ERC721; ERC165] /\
  answers_exactly Erc721Consecutive [ERC721; ERC165] /\
  answers_exactly Erc721Metadata [ERC721_METADATA; ERC165] /\
  answers_exactly Erc721Enumerable [ERC721_ENUMERABLE; ERC165] /\
  answers_exactly Erc1155 [ERC1155; ERC165] /\
  answers_exactly Erc1155MetadataUri [ERC1155_METADATA_URI; ERC165] /\
  answers_exactly Erc2981 [ERC2981; ERC165].
Proof.
  split.
  - intros b _ _. unfold Erc165. rewrite id_erc165, Z.eqb_eq. cbn [In]. intuition congruence.
  - repeat match goal with |- _ /\ _ => split end; solve_ids.
Qed.
Print Assumptions c70_standard_ids.

Theorem c70_library_ids :
  answers_exactly Ownable [OWNABLE; ERC165] /\
  answers_exactly Ownable2Step [OWNABLE_2STEP; OWNABLE; ERC165] /\
  answers_exactly Erc20Wrapper [ERC20_WRAPPER; ERC165] /\
  answers_exactly SafeErc20 [SAFE_ERC20; ERC165] /\
  answers_exactly Erc1155Supply [ERC1155_SUPPLY; ERC1155; ERC165] /\
  answers_exactly VestingWallet [VESTING_WALLET; ERC165].
Proof. repeat match goal with |- _ /\ _ => split end; solve_ids. Qed.
Print Assumptions c70_library_ids.

Theorem c70_examples :
  answers_exactly Erc20Example [ERC20; ERC20_METADATA; ERC165] /\
  answers_exactly Erc721Example [ERC721; ERC721_ENUMERABLE; ERC165] /\
  answers_exactly Erc721MetadataExample [ERC721; ERC721_METADATA; ERC165] /\
  answers_exactly Erc721ConsecutiveExample [ERC721; ERC165] /\
  answers_exactly Erc1155Example [ERC1155; ERC165] /\
  answers_exactly Erc1155SupplyExample [ERC1155; ERC165] /\
  answers_exactly Erc1155MetadataUriExample [ERC1155; ERC1155_METADATA_URI; ERC165].
Proof. repeat match goal with |- _ /\ _ => split end; solve_ids. Qed.
Print Assumptions c70_examples.

(** Nobody answers yes to 0xffffffff. *)
Definition all_contracts : list (list Z -> bool) :=
  [Erc165; AccessControl; Ownable; Ownable2Step; VestingWallet; Erc2981; Erc1155; Erc1155MetadataUri; Erc1155Supply;
   Erc20; Erc20Metadata; Erc20Wrapper; Erc4626; Erc20FlashMint; SafeErc20; Erc721; Erc721Consecutive;
   Erc721Enumerable; Erc721Metadata; Erc20Example; Erc721Example; Erc721MetadataExample; Erc721ConsecutiveExample;
   Erc1155Example; Erc1155SupplyExample; Erc1155MetadataUriExample].
Theorem c70_invalid_id : forall f, In f all_contracts -> f [255; 255; 255; 255] = false.
Proof.
  intros f H. unfold all_contracts in H. cbn [In] in H.
  repeat (destruct H as [<-|H];
    [cbv beta delta [AccessControl Ownable Ownable2Step VestingWallet Erc2981 Erc1155 Erc1155MetadataUri
    Erc1155Supply Erc20 Erc20Metadata Erc20Wrapper Erc4626 Erc20FlashMint SafeErc20 Erc721 Erc721Consecutive
    Erc721Enumerable Erc721Metadata Erc20Example Erc721Example Erc721MetadataExample Erc721ConsecutiveExample
    Erc1155Example Erc1155SupplyExample Erc1155MetadataUriExample Erc165];
    rewrite ?id_erc165, ?id_access_control, ?id_ownable, ?id_ownable2, ?id_vesting, ?id_erc2981, ?id_uri, ?id_supply,
    ?id_erc1155, ?id_erc20_metadata, ?id_erc20, ?id_safe, ?id_enumerable, ?id_erc721, ?id_erc721_metadata,
    ?id_wrapper, ?id_erc4626, ?id_lender; reflexivity|]).
  destruct H.
Qed.
Print Assumptions c70_invalid_id.

(** C70 fails for access control: because the guard [only_role] is a function of the
    trait, its selector is mixed into the identifier, and the published one is denied. *)
Theorem c70_access_control_refuted :
  exists b, length b = 4%nat /\ Forall is_byte b /\ of_be b = ACCESS_CONTROL /\ AccessControl b = false.
Proof.
  exists [0x79; 0x65; 0xdb; 0x0b]. split; [reflexivity|]. split.
  { repeat constructor; unfold is_byte; lia. }
  split; [reflexivity|]. unfold AccessControl, Erc165. rewrite id_access_control, id_erc165. reflexivity.
Qed.
Print Assumptions c70_access_control_refuted.
(** What it answers instead: the published identifier with that selector mixed in. *)
Theorem c70_access_control_partial :
  answers_exactly AccessControl
    [Z.lxor ACCESS_CONTROL (keccak256 (bytes_of_string "onlyRole(bytes32)"%string) / 2 ^ 224); ERC165].
Proof.
  assert (E : Z.lxor ACCESS_CONTROL (keccak256 (bytes_of_string "onlyRole(bytes32)"%string) / 2 ^ 224) = 0x0edd8b6c)
    by (vm_compute; reflexivity).
  rewrite E. solve_ids.
Qed.
Print Assumptions c70_access_control_partial.

(** The values receivers must return are those of EIP-721 and EIP-1155, and the ones used
    by the token models. *)
Theorem c70_receiver_selectors :
  RECEIVER_FN_SELECTOR = 0x150b7a02 /\ Erc721.RECEIVER_FN_SELECTOR = 0x150b7a02 /\
  SINGLE_TRANSFER_FN_SELECTOR = 0xf23a6e61 /\ Erc1155.SINGLE_TRANSFER_FN_SELECTOR = 0xf23a6e61 /\
  BATCH_TRANSFER_FN_SELECTOR = 0xbc197c81 /\ Erc1155.BATCH_TRANSFER_FN_SELECTOR = 0xbc197c81.
Proof. repeat match goal with |- _ /\ _ => split end; vm_compute; reflexivity. Qed.
Print Assumptions c70_receiver_selectors.

(** Concrete answers. *)
Example c70_example :
  Erc20 [0x36; 0x37; 0x2b; 0x07] = true /\ Erc20 [0x01; 0xff; 0xc9; 0xa7] = true /\
  Erc20 [0x80; 0xac; 0x58; 0xcd] = false /\ Forall is_byte [0x36; 0x37; 0x2b; 0x07].
Proof.
  unfold Erc20, Erc165. rewrite id_erc20, id_erc165.
  split; [reflexivity|]. split; [reflexivity|]. split; [reflexivity|]. repeat constructor; unfold is_byte; lia.
Qed.
