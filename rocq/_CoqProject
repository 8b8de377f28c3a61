-Q theories Verif
theories/Base/Prelude.v
theories/Base/Maps.v
theories/Model/Erc20.v
theories/Proofs/Erc20_inv.v
theories/Spec/Erc20_spec.v
theories/Proofs/Erc20_api.v
theories/Proofs/Erc20_hist.v
theories/Props/Erc20_props.v
theories/Model/Nonces.v
theories/Model/Pausable.v
theories/Model/Ownable.v
theories/Model/Ownable2Step.v
theories/Model/AccessControl.v
theories/Spec/Utils_spec.v
theories/Props/Utils_props.v
theories/Spec/Access_spec.v
theories/Props/Access_props.v
theories/Model/Erc20Example.v
theories/Props/Erc20Example_props.v
theories/Base/Bytes.v
theories/Base/Keccak.v
theories/Model/Ecdsa.v
theories/Model/Eip712.v
theories/Model/Permit.v
theories/Props/Crypto_props.v
theories/Model/Math.v
theories/Proofs/Math_lemmas.v
theories/Model/BitMap.v
theories/Model/Checkpoints.v
theories/Spec/Structs_spec.v
theories/Proofs/Structs_lemmas.v
theories/Props/Structs_props.v
theories/Model/FlashMint.v
theories/Spec/FlashMint_spec.v
theories/Props/FlashMint_props.v
theories/Model/SafeErc20.v
theories/Model/Erc20World.v
theories/Model/Wrapper.v
theories/Model/Erc4626.v
theories/Spec/World_spec.v
theories/Proofs/World_lemmas.v
theories/Props/SafeErc20_props.v
theories/Props/Wrapper_props.v
theories/Spec/Erc4626_spec.v
theories/Proofs/Erc4626_lemmas.v
theories/Props/Erc4626_props.v
theories/Model/Vesting.v
theories/Spec/Vesting_spec.v
theories/Proofs/Vesting_lemmas.v
theories/Props/Vesting_props.v
theories/Model/Erc721.v
theories/Spec/Erc721_spec.v
theories/Proofs/Erc721_lemmas.v
theories/Props/Erc721_props.v
theories/Model/Consecutive.v
theories/Spec/Consecutive_spec.v
theories/Proofs/Consecutive_lemmas.v
theories/Props/Consecutive_props.v
theories/Model/Enumerable.v
theories/Model/Erc721Example.v
theories/Spec/Enumerable_spec.v
theories/Proofs/Enumerable_lemmas.v
theories/Props/Enumerable_props.v
theories/Model/Wrapper721.v
theories/Spec/Wrapper721_spec.v
theories/Proofs/Wrapper721_lemmas.v
theories/Props/Wrapper721_props.v
theories/Model/Erc721Uri.v
theories/Spec/Uri_spec.v
theories/Props/Uri_props.v
theories/Model/Erc1155.v
theories/Spec/Erc1155_spec.v
theories/Proofs/Erc1155_lemmas.v
theories/Props/Erc1155_props.v
theories/Model/Erc2981.v
theories/Spec/Erc2981_spec.v
theories/Props/Erc2981_props.v
theories/Model/Merkle.v
theories/Spec/Merkle_spec.v
theories/Props/Merkle_props.v
theories/Model/Uint.v
theories/Spec/Uint_spec.v
theories/Proofs/Uint_lemmas.v
theories/Props/Uint_props.v
theories/Model/Fp.v
theories/Spec/Fp_spec.v
theories/Proofs/Fp_lemmas.v
theories/Props/Fp_props.v
theories/Model/FieldInstances.v
theories/Proofs/Lucas.v
theories/Proofs/Primes.v
theories/Proofs/Root_vesta.v
theories/Proofs/Root_baby_bear.v
theories/Proofs/Root_bls12.v
theories/Proofs/Root_bn256.v
theories/Proofs/Root_goldilocks.v
theories/Proofs/Root_pallas.v
theories/Proofs/Instance_lemmas.v
theories/Props/Instance_props.v
theories/Model/Curve.v
theories/Spec/Curve_spec.v
theories/Proofs/Curve_lemmas.v
theories/Proofs/Curve_group.v
theories/Proofs/Curve_mul.v
theories/Proofs/Fp_field.v
theories/Props/Curve_props.v
theories/Model/Poseidon.v
theories/Model/PoseidonInstances.v
theories/Spec/Poseidon_spec.v
theories/Proofs/Poseidon_lemmas.v
theories/Proofs/Poseidon_perm.v
theories/Proofs/Poseidon_sponge.v
theories/Proofs/Fermat.v
theories/Proofs/Poseidon_instance.v
theories/Props/Poseidon_props.v
theories/Model/Introspection.v
theories/Spec/Introspection_spec.v
theories/Props/Introspection_props.v
theories/Model/VaultHooks.v
theories/Spec/VaultHooks_spec.v
theories/Proofs/VaultHooks_lemmas.v
theories/Props/VaultHooks_props.v
theories/Spec/Multiproof_spec.v
theories/Props/Multiproof_props.v
theories/Model/AccessExample.v
theories/Model/Erc1155Example.v
theories/Spec/Examples_spec.v
theories/Props/Examples_props.v
theories/Model/Router.v
theories/Spec/Router_spec.v
theories/Proofs/Router_lemmas.v
theories/Props/Router_props.v
theories/Model/SolAbi.v
theories/Spec/SolAbi_spec.v
theories/Spec/LogMeaning_spec.v
theories/Proofs/SolAbi_lemmas.v
theories/Props/SolAbi_props.v
theories/Props/Indexer_props.v
theories/Props/Revert_props.v
theories/Spec/Hostile_spec.v
theories/Proofs/Hostile_lemmas.v
theories/Props/Hostile_props.v
theories/Model/ConsecutiveExample.v
theories/Spec/ConsecutiveExample_spec.v
theories/Proofs/ConsecutiveExample_lemmas.v
theories/Props/ConsecutiveExample_props.v
theories/Spec/PoseidonInt_spec.v
theories/Model/PoseidonExample.v
theories/Proofs/PoseidonInt_lemmas.v
theories/Props/PoseidonInt_props.v
theories/Model/Layout.v
theories/Spec/Layout_spec.v
theories/Proofs/Layout_lemmas.v
theories/Props/Layout_props.v
theories/Spec/Permit_spec.v
theories/Proofs/Permit_hist.v
theories/Props/PermitHist_props.v
theories/Spec/Errors_spec.v
theories/Props/Errors_props.v
theories/Model/Utf8.v
theories/Spec/Utf8_spec.v
theories/Proofs/Utf8_lemmas.v
theories/Model/Entry.v
theories/Model/EntryErc20.v
theories/Spec/Entry_spec.v
theories/Proofs/Entry_lemmas.v
theories/Props/Entry_props.v
theories/Spec/TypedData_spec.v
theories/Proofs/TypedData_lemmas.v
theories/Props/TypedData_props.v
theories/Model/EntryErc721.v
theories/Spec/EntryNft_spec.v
theories/Proofs/EntryNft_lemmas.v
theories/Props/EntryNft_props.v
theories/Spec/Ledger_spec.v
theories/Proofs/Ledger_lemmas.v
theories/Model/EntryPermit.v
theories/Spec/EntryPermit_spec.v
theories/Props/EntryPermit_props.v
theories/Model/EntryVault.v
theories/Spec/EntryVault_spec.v
theories/Proofs/EntryVault_lemmas.v
theories/Props/EntryVault_props.v
theories/Props/EntryWrapper_props.v
theories/Model/EntryMerkle.v
theories/Spec/EntryMerkle_spec.v
theories/Props/EntryMerkle_props.v
theories/Model/EntryErc1155.v
theories/Spec/EntryMulti_spec.v
theories/Proofs/EntryMulti_lemmas.v
theories/Props/EntryMulti_props.v
theories/Model/EntryVesting.v
theories/Spec/EntryVesting_spec.v
theories/Proofs/EntryVesting_lemmas.v
theories/Props/EntryVesting_props.v
theories/Model/OwnableExample.v
theories/Model/EntryAccess.v
theories/Spec/EntryAccess_spec.v
theories/Proofs/EntryAccess_lemmas.v
theories/Props/EntryAccess_props.v
theories/Props/EntryOwner_props.v
theories/Model/FlashCache.v
theories/Spec/FlashCache_spec.v
theories/Props/FlashCache_props.v
theories/Model/EntryFlash.v
theories/Spec/EntryFlash_spec.v
theories/Proofs/EntryFlash_lemmas.v
theories/Props/EntryFlash_props.v
theories/Model/EntrySafe.v
theories/Spec/EntrySafe_spec.v
theories/Props/EntrySafe_props.v
theories/Model/EntrySupply.v
theories/Spec/EntrySupply_spec.v
theories/Proofs/EntrySupply_lemmas.v
theories/Props/EntrySupply_props.v
theories/Model/EntryMeta.v
theories/Spec/EntryMeta_spec.v
theories/Proofs/EntryMeta_lemmas.v
theories/Props/EntryMeta_props.v
theories/Model/EntryUri.v
theories/Spec/EntryUri_spec.v
theories/Proofs/EntryUri_lemmas.v
theories/Props/EntryUri_props.v
theories/Model/EntryConsecutive.v
theories/Spec/EntryConsecutive_spec.v
theories/Proofs/EntryConsecutive_lemmas.v
theories/Props/EntryConsecutive_props.v
theories/Model/EntryBasic.v
theories/Spec/EntryBasic_spec.v
theories/Props/EntryBasic_props.v
theories/Model/EntryPoseidon.v
theories/Spec/EntryPoseidon_spec.v
theories/Props/EntryPoseidon_props.v
theories/Model/EntryWrapper721.v
theories/Spec/EntryWrapper721_spec.v
theories/Props/EntryWrapper721_props.v
