(** What ERC-165 asks, and the identifiers published for the standards. *)
From Verif.Base Require Import Prelude Bytes.
#[global] Open Scope Z_scope.

(** [f] answers yes to exactly the four-byte identifiers [ids]. *)
Definition answers_exactly (f : list Z -> bool) (ids : list Z) : Prop :=
  forall b, length b = 4%nat -> Forall is_byte b -> (f b = true <-> In (of_be b) ids).

(** From the texts of the standards: EIP-165, EIP-20 (as used by wallets), EIP-20 metadata, EIP-721 and
    its metadata and enumeration extensions, EIP-1155 and its metadata extension,
    EIP-2981, EIP-4626, EIP-3156 lender; and OpenZeppelin's IAccessControl. *)
Definition ERC165 : Z := 0x01ffc9a7.
Definition ERC20 : Z := 0x36372b07.
Definition ERC20_METADATA : Z := 0xa219a025.
Definition ERC721 : Z := 0x80ac58cd.
Definition ERC721_METADATA : Z := 0x5b5e139f.
Definition ERC721_ENUMERABLE : Z := 0x780e9d63.
Definition ERC1155 : Z := 0xd9b67a26.
Definition ERC1155_METADATA_URI : Z := 0x0e89341c.
Definition ERC2981 : Z := 0x2a55205a.
Definition ERC4626 : Z := 0x87dfe5a0.
Definition ERC3156_LENDER : Z := 0xe4143091.
Definition ACCESS_CONTROL : Z := 0x7965db0b.
(** Identifiers of interfaces that only exist in this library, fixed by its unit tests
    (the last one is not: the test of the vesting wallet only excludes one value). *)
Definition OWNABLE : Z := 0x0e083076.
Definition OWNABLE_2STEP : Z := 0x94be5999.
Definition ERC20_WRAPPER : Z := 0x511f913e.
Definition SAFE_ERC20 : Z := 0xf71993e3.
Definition ERC1155_SUPPLY : Z := 0xeac6339d.
Definition VESTING_WALLET : Z := 0x123215de.
(** The identifier ERC-165 forbids anybody to support. *)
Definition INVALID : Z := 0xffffffff.
