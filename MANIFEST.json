{
 "claims": [
  {
   "property": "C01",
   "status": "proved",
   "theorems": [
    "c01_supply_is_sum_of_balances",
    "c01_no_wrap_around"
   ],
   "note": "invariant over all histories of public and pub-internal calls"
  },
  {
   "property": "C02",
   "status": "proved",
   "theorems": [
    "c02_transfer_exact",
    "c02_transfer_from_exact"
   ],
   "note": "iff for success, effect, frame, event, error payloads"
  },
  {
   "property": "C03",
   "status": "proved",
   "theorems": [
    "c03_allowance_budget",
    "c03_debits_are_authorised"
   ],
   "note": "public entry points, any interleaving of callers"
  },
  {
   "property": "C04",
   "status": "proved",
   "theorems": [
    "c04_events_are_a_complete_ledger"
   ],
   "note": "balances, supply from Transfer events; last Approval bounds the allowance"
  },
  {
   "property": "C05",
   "status": "proved",
   "theorems": [
    "c05_failed_transactions_change_nothing",
    "c05_library_calls_fail_cleanly",
    "c05_transfer_from_failure_frame",
    "c05_transfer_from_not_clean_at_library_level_refuted"
   ],
   "note": "the last theorem shows the allowed exception really occurs"
  },
  {
   "property": "C06",
   "status": "proved",
   "theorems": [
    "c06_mint_exact",
    "c06_burn_exact",
    "c06_burn_from_exact"
   ],
   "note": ""
  },
  {
   "property": "C07",
   "status": "proved",
   "theorems": [
    "c07_token_is_an_erc20",
    "c07_supply_never_exceeds_cap",
    "c07_mint_exact",
    "c07_frozen_while_paused"
   ],
   "note": ""
  },
  {
   "property": "C08",
   "status": "proved",
   "theorems": [
    "c08_permit_exact",
    "c08_nonces_never_decrease",
    "c08_digest_consumed_once",
    "c08_replay_needs_second_signature"
   ],
   "note": "For every hash function and every ecrecover behaviour."
  },
  {
   "property": "C09",
   "status": "partial",
   "theorems": [
    "c09_ledger_consistent",
    "c09_flash_loan_repaid_or_reverted",
    "c09_no_supply_inflation",
    "c09_quotes",
    "c96_no_difference_when_callbacks_keep_the_supply",
    "c96_only_the_supply_is_stale",
    "c96_supply_is_the_sum_refuted"
   ],
   "note": "Borrowers are arbitrary finite call trees (nested loans, any callers, any return value or revert). The c09 theorems are for accessors that read the storage each time. With accessors that remember, as the SDK's do, the clauses on the supply are REFUTED (c96_supply_is_the_sum_refuted); everything else holds for all borrowers (c96_only_the_supply_is_stale) and all of C09 holds when no callback makes or destroys tokens (c96_no_difference_when_callbacks_keep_the_supply)."
  },
  {
   "property": "C10",
   "status": "proved",
   "theorems": [
    "c10_always_backed",
    "c10_deposit_one_for_one",
    "c10_withdraw_one_for_one",
    "c10_holder_can_exit",
    "c10_recover_exact"
   ],
   "note": "Underlying is the library's own Erc20 model, driven by arbitrary third parties."
  },
  {
   "property": "C11",
   "status": "proved",
   "theorems": [
    "c11_preview_deposit_floor",
    "c11_preview_mint_ceil",
    "c11_preview_withdraw_ceil",
    "c11_preview_redeem_floor",
    "c11_converts_floor",
    "c11_quotients_exist_uniquely",
    "c11_monotone"
   ],
   "note": ""
  },
  {
   "property": "C12",
   "status": "proved",
   "theorems": [
    "c12_deposit_then_redeem",
    "c12_mint_then_withdraw",
    "c12_withdraw_then_deposit",
    "c12_redeem_then_mint"
   ],
   "note": ""
  },
  {
   "property": "C13",
   "status": "proved",
   "theorems": [
    "c13_rate_never_decreases",
    "c13_assets_leave_only_for_shares"
   ],
   "note": ""
  },
  {
   "property": "C14",
   "status": "proved",
   "theorems": [
    "c14_deposit_as_previewed",
    "c14_mint_as_previewed",
    "c14_redeem_as_previewed",
    "c14_withdraw_as_previewed",
    "c14_max_redeem_succeeds",
    "c14_max_withdraw_succeeds"
   ],
   "note": ""
  },
  {
   "property": "C15",
   "status": "proved",
   "theorems": [
    "c15_everybody_can_exit",
    "c15_quotes_covered"
   ],
   "note": "Full redemption succeeds whenever T+1 and S+10^d fit 256 bits; otherwise every conversion panics (C11)."
  },
  {
   "property": "C16",
   "status": "partial",
   "theorems": [
    "c16_loss_below_share_price",
    "c16_inflation_attack_unprofitable_partial",
    "c16_donation_must_exceed_loss_refuted"
   ],
   "note": "Loss bound proved as stated. The last clause is REFUTED as worded (donating exactly 10^d times the loss can suffice) and proved with \"at least\" instead of \"more than\"; also proved: the attacker never gets back more than it put in."
  },
  {
   "property": "C17",
   "status": "partial",
   "theorems": [
    "c17_success_iff_call_succeeded",
    "c17_transfers_are_guarded_calls",
    "c17_abi_conforming_tokens_partial",
    "c17_short_data_rejected_refuted",
    "c17_force_approve_exact",
    "c17_increase_exact",
    "c17_decrease_exact",
    "c17_own_token_approvable",
    "c17_usdt_style_approvable"
   ],
   "note": "REFUTED in one corner: return data shorter than 32 bytes whose last byte is 1 is accepted as true. Everything else of the statement is proved for arbitrary token behaviour."
  },
  {
   "property": "C18",
   "status": "proved",
   "theorems": [
    "c18_schedule_exact",
    "c18_vested_determined",
    "c18_vested_bounds",
    "c18_vested_monotone"
   ],
   "note": ""
  },
  {
   "property": "C19",
   "status": "proved",
   "theorems": [
    "c19_conservation",
    "c19_never_more_than_vested",
    "c19_released_never_decreases",
    "c19_release_exact",
    "c19_second_release_pays_nothing",
    "c19_empty_after_end",
    "c19_token_never_more_than_vested",
    "c19_token_release_exact",
    "c19_other_tokens_untouched"
   ],
   "note": "Ether and an honest ERC-20 token. A wallet that owns itself pays itself; the two corollaries about emptying exclude that."
  },
  {
   "property": "C20",
   "status": "proved",
   "theorems": [
    "c20_reentrant_release",
    "c20_refused_payment_undone"
   ],
   "note": "The owner's code is an arbitrary program of releases, transfers, ownership and token calls."
  },
  {
   "property": "C21",
   "status": "partial",
   "theorems": [
    "c21_releasable_within_balance_refuted",
    "c21_successful_release_pays_releasable_partial",
    "c21_views_exact_on_honest_assets_partial"
   ],
   "note": "REFUTED: if a token balance shrinks below what was already released, releasable(token) wraps to a huge number and release panics. Proved: successful releases always pay vested - released, covered by the reported balance, for every token."
  },
  {
   "property": "C22",
   "status": "proved",
   "theorems": [
    "c22_membership_changes_exactly",
    "c22_outcomes",
    "c22_gained_through_admin",
    "c22_lost_through_admin_or_self",
    "c22_admin_graph_fixed_by_users",
    "c22_dead_roles_stay_dead"
   ],
   "note": "Histories of grant/revoke/renounce/_set_role_admin by any callers from any state."
  },
  {
   "property": "C23",
   "status": "proved",
   "theorems": [
    "c23_events_mirror_membership",
    "c23_event_iff_change"
   ],
   "note": "All histories, author-level functions included."
  },
  {
   "property": "C24",
   "status": "proved",
   "theorems": [
    "c24_outcomes",
    "c24_owner_changes_only_by_owner",
    "c24_renounced_forever",
    "c24_events_chain_of_custody"
   ],
   "note": ""
  },
  {
   "property": "C25",
   "status": "proved",
   "theorems": [
    "c25_outcomes",
    "c25_pending_was_nominated_by_current_owner",
    "c25_owner_changes_by_nomination_and_acceptance",
    "c25_renomination_cancels",
    "c25_renounced_forever",
    "c25_events_chain_of_custody"
   ],
   "note": "Calls through Ownable2Step; the inner Ownable reached through Deref is outside."
  },
  {
   "property": "C26",
   "status": "proved",
   "theorems": [
    "c26_pause_unpause_exact",
    "c26_state_machine"
   ],
   "note": ""
  },
  {
   "property": "C27",
   "status": "proved",
   "theorems": [
    "c27_use_nonce_exact",
    "c27_use_checked_nonce_exact",
    "c27_handed_out_in_order",
    "c27_checked_nonce_accepted_once"
   ],
   "note": ""
  },
  {
   "property": "C28",
   "status": "proved",
   "theorems": [
    "c28_bitmap_is_a_set",
    "c28_no_interference",
    "c28_words_in_range"
   ],
   "note": "All histories and all indices."
  },
  {
   "property": "C29",
   "status": "proved",
   "theorems": [
    "c29_upper_lookup",
    "c29_upper_lookup_recent",
    "c29_lower_lookup",
    "c29_push",
    "c29_stored_checkpoints"
   ],
   "note": "All histories of fewer than 2^64 pushes (storage vector length is a usize); includes absence of panics and termination of the searches."
  },
  {
   "property": "C30",
   "status": "proved",
   "theorems": [
    "c30_sqrt_exact",
    "c30_sqrt_no_overflow"
   ],
   "note": "All 2^256 inputs; quadratic convergence of the six Newton steps proved, inputs below 16 by evaluation."
  },
  {
   "property": "C31",
   "status": "proved",
   "theorems": [
    "c31_average_exact",
    "c31_mul_div_exact",
    "c31_mul_div_panics_exactly"
   ],
   "note": ""
  },
  {
   "property": "C32",
   "status": "proved",
   "theorems": [
    "c32_balance_counts_tokens",
    "c32_unique_owner",
    "c32_zero_address_owns_nothing"
   ],
   "note": "All call trees including re-entrant receivers. balance_of equals the number of owned ids exactly unless one account owns all 2^256 ids (then it is that number mod 2^256)."
  },
  {
   "property": "C33",
   "status": "proved",
   "theorems": [
    "c33_transfer_from_iff",
    "c33_transfer_from_effect",
    "c33_safe_transfer_from",
    "c33_token_stays_without_authorised_call"
   ],
   "note": "Balance arithmetic is exact as long as not all 2^256 ids exist (hypothesis room). The history form covers re-entrant receivers."
  },
  {
   "property": "C34",
   "status": "proved",
   "theorems": [
    "c34_approval_cleared_on_move",
    "c34_stays_cleared",
    "c34_approve_iff",
    "c34_approve_effect",
    "c34_operators_set_only_by_owner",
    "c34_set_approval_for_all",
    "c34_approvals_from_events"
   ],
   "note": ""
  },
  {
   "property": "C35",
   "status": "proved",
   "theorems": [
    "c35_mint_iff",
    "c35_mint_errors",
    "c35_burn_iff",
    "c35_public_burn_iff",
    "c35_mint_effect",
    "c35_burn_effect",
    "c35_no_second_mint",
    "c35_nonexistent"
   ],
   "note": ""
  },
  {
   "property": "C36",
   "status": "proved",
   "theorems": [
    "c36_events_determine_ownership"
   ],
   "note": "Also proves that the from/owner fields of the events are truthful."
  },
  {
   "property": "C37",
   "status": "proved",
   "theorems": [
    "c37_accepting_receivers_only",
    "c37_rejection_reverts",
    "c37_mint_rejection_reverts",
    "c37_no_data",
    "c37_receiver_called_after_transfer"
   ],
   "note": "Receiver behaviour is an arbitrary function of its arguments and of the storage."
  },
  {
   "property": "C38",
   "status": "partial",
   "theorems": [
    "c38_refuted",
    "c38_overflowing_first_batch_refuted",
    "c38_batches_assign_exactly_partial",
    "c38_batch_effect",
    "c38_owner_until_moved"
   ],
   "note": "REFUTED at the end of the 96-bit id space: a batch that ends at id 2^96-1 makes _next_consecutive_id wrap to 0, so burns are not recorded and the burned token still has its owner; a first batch running past 2^96 credits a balance without tokens. Proved for every history whose batches end before 2^96-1 (fewer than 2^64 calls)."
  },
  {
   "property": "C39",
   "status": "partial",
   "theorems": [
    "c39_refuted",
    "c39_disciplined_interleaving_partial"
   ],
   "note": "REFUTED: a single _mint of an id that a later batch covers makes that batch double-count (ForbiddenMint and ForbiddenBatchMint are never raised). Proved: exact ownership and balances for every interleaving in which single mints stay below the next consecutive id or at or above 2^96."
  },
  {
   "property": "C40",
   "status": "proved",
   "theorems": [
    "c40_enumeration_exact",
    "c40_index_below_balance",
    "c40_hooks_never_fail"
   ],
   "note": "Through the shipped example contract (examples/erc721), every history without self transfers; also that the hooks never fail or panic."
  },
  {
   "property": "C41",
   "status": "partial",
   "theorems": [
    "c41_id_zero_refuted",
    "c41_self_transfer_refuted",
    "c41_only_zero_hidden_partial"
   ],
   "note": "REFUTED: an owned token with id 0 is answered OutOfBounds; a self transfer through the shipped example corrupts the owner's list (one index refused, another token lost). Proved: without self transfers id 0 is the only hidden token."
  },
  {
   "property": "C42",
   "status": "proved",
   "theorems": [
    "c42_backed",
    "c42_custody",
    "c42_passive_holder",
    "c42_rounds",
    "c42_withdraw",
    "c42_withdraw_refused",
    "c42_withdrawable",
    "c42_deposit",
    "c42_received_refused",
    "c42_direct"
   ],
   "note": "Two contracts with arbitrary re-entering receivers; the collection is the ERC-721 of this library with public minting; _recover exposed to everybody."
  },
  {
   "property": "C43",
   "status": "proved",
   "theorems": [
    "c43_decimal",
    "c43_decimal_unique",
    "c43_metadata",
    "c43_distinct",
    "c43_uri_storage"
   ],
   "note": "Strings as byte lists; URI storage over every history of examples/erc721-metadata."
  },
  {
   "property": "C44",
   "status": "proved",
   "theorems": [
    "c44_supply_is_minted_minus_burned",
    "c44_balances_in_range",
    "c44_call_effect",
    "c44_single_transfer_iff"
   ],
   "note": "Histories are call trees with arbitrary re-entering receivers; exact effect of every call and exact success condition of a single transfer."
  },
  {
   "property": "C45",
   "status": "proved",
   "theorems": [
    "c45_batch_is_sequence",
    "c45_same_effect",
    "c45_length_mismatch",
    "c45_empty_batch",
    "c45_failure_changes_nothing"
   ],
   "note": "Batches of at least one element, receivers that accept and make no calls; the empty batch (which checks authorisation although it has no elements) is characterised separately."
  },
  {
   "property": "C46",
   "status": "proved",
   "theorems": [
    "c46_only_holder_or_operator",
    "c46_approval_only_by_holder",
    "c46_passive_holder_keeps_tokens"
   ],
   "note": ""
  },
  {
   "property": "C47",
   "status": "proved",
   "theorems": [
    "c47_batch_transfer",
    "c47_single_transfer",
    "c47_batch_mint",
    "c47_single_mint"
   ],
   "note": "For arbitrary receivers, which may change the state before answering."
  },
  {
   "property": "C48",
   "status": "proved",
   "theorems": [
    "c48_balance_of_batch",
    "c48_events_replay",
    "c48_approval_events_replay"
   ],
   "note": ""
  },
  {
   "property": "C49",
   "status": "proved",
   "theorems": [
    "c49_total_supply_is_sum_of_balances",
    "c49_exists_iff_nonzero",
    "c49_inner_burn_refuted"
   ],
   "note": "Histories through the extension's own functions; c49_inner_burn_refuted shows that burning on the inner contract (reachable through Deref) breaks the tracking."
  },
  {
   "property": "C50",
   "status": "partial",
   "theorems": [
    "c50_total_supply_all_refuted",
    "c50_total_supply_all_mod_partial",
    "c50_total_supply_all_exact_partial",
    "c50_overflowing_mint_rejected_partial"
   ],
   "note": "REFUTED as stated: the sum of a batch's values wraps, so a batch mint of 2^255 of each of two ids succeeds and leaves total_supply_all at 0. Proved instead: equal modulo 2^256 always; exact, and overflowing mints rejected, as long as no minted batch by itself adds up to 2^256."
  },
  {
   "property": "C51",
   "status": "proved",
   "theorems": [
    "c51_royalty_info",
    "c51_setters_reject",
    "c51_unset_denominator_panics"
   ],
   "note": "For every history of settings with a nonzero denominator fixed at deployment. c51_unset_denominator_panics: without setting it (it does not default to 10000 as documented) every query panics."
  },
  {
   "property": "C52",
   "status": "proved",
   "theorems": [
    "c52_recover_accepts_exactly",
    "c52_malleated_twin_rejected",
    "c52_failures"
   ],
   "note": "For every behaviour of the precompile; failed/empty precompile output panics."
  },
  {
   "property": "C53",
   "status": "proved",
   "theorems": [
    "c53_typed_data_preimage",
    "c53_digest_unambiguous"
   ],
   "note": "For every hash function; a clash yields an explicit collision. Repository test vector checked with an executable Keccak-256."
  },
  {
   "property": "C54",
   "status": "proved",
   "theorems": [
    "c54_sibling_path_verifies"
   ],
   "note": "Trees of any shape, any deterministic hasher."
  },
  {
   "property": "C55",
   "status": "proved",
   "theorems": [
    "c55_soundness",
    "c55_sibling_order_irrelevant",
    "c55_keccak_soundness"
   ],
   "note": "The collision or preimage is among the explicitly listed strings hashed by the verification and by building the tree."
  },
  {
   "property": "C56",
   "status": "proved",
   "theorems": [
    "c56_total_and_error_iff_malformed",
    "c56_never_panics",
    "c56_every_leaf_provable",
    "c56_error_kinds"
   ],
   "note": ""
  },
  {
   "property": "C57",
   "status": "proved",
   "theorems": [
    "c57_widening_mul",
    "c57_add",
    "c57_adc",
    "c57_sub",
    "c57_double_halve",
    "c57_compare",
    "c57_mul",
    "c57_bits",
    "c57_bitwise"
   ],
   "note": "For every number of limbs. The wasm widening multiplication equals the native one."
  },
  {
   "property": "C58",
   "status": "partial",
   "theorems": [
    "c58_rem_zero_refuted",
    "c58_rem_nonzero_partial",
    "c58_wide_bits"
   ],
   "note": "False for the value zero: ct_num_bits() - 1 underflows (panic with overflow checks; without them the loop runs over a wrapped index). Proved for every nonzero 2N-limb value and every modulus."
  },
  {
   "property": "C59",
   "status": "partial",
   "theorems": [
    "c59_leading_zeros_refuted",
    "c59_from_str_radix_partial",
    "c59_from_str_hex_partial",
    "c59_from_str_radix_canonical_partial",
    "c59_bytes",
    "c59_bytes_back",
    "c59_bit_iterators",
    "c59_from_primitives"
   ],
   "note": "False as stated: leading zeros overflow the order of magnitude (or the limb index) and panic. Exact characterisation of accepted strings proved; all strings without a leading zero are parsed correctly."
  },
  {
   "property": "C60",
   "status": "proved",
   "theorems": [
    "c60_convert",
    "c60_constants",
    "c60_ring_operations",
    "c60_sum_of_products",
    "c60_pow",
    "c60_compare",
    "c60_from_integers",
    "c60_to_integers"
   ],
   "note": "Every odd modulus greater than one of any number of limbs, with or without spare bit."
  },
  {
   "property": "C61",
   "status": "proved",
   "theorems": [
    "c61_inverse",
    "c61_division",
    "c61_composite"
   ],
   "note": "Termination is a bound of 128 N + 1 rounds that every larger fuel confirms; c61_composite shows that over a composite modulus inversion diverges exactly on the non-units."
  },
  {
   "property": "C62",
   "status": "proved",
   "theorems": [
    "c62_parameters"
   ],
   "note": "Primality and primitive roots by Lucas certificates over the full factorisation of p-1, checked in the kernel."
  },
  {
   "property": "C63",
   "status": "proved",
   "theorems": [
    "c63_law",
    "c63_representation",
    "c63_is_on_curve",
    "c63_double",
    "c63_add",
    "c63_add_mixed",
    "c63_add_affine",
    "c63_neg",
    "c63_representatives",
    "c63_prime_fields"
   ],
   "note": "Any field of characteristic other than two given by the operations the curve code uses; Model/Fp.v over a prime modulus is shown to be one. Doubling needs no curve equation; addition assumes both points on the curve, as the affine formulas do."
  },
  {
   "property": "C64",
   "status": "proved",
   "theorems": [
    "c64_multiplication",
    "c64_mul_bigint",
    "c64_multiples",
    "c64_batch_inversion",
    "c64_normalize_batch",
    "c64_sum",
    "c64_new",
    "c64_cofactor"
   ],
   "note": "Repeated addition over every bit string and limb array, on singular curves too; batch inversion and normalisation pointwise; checked constructors and cofactor clearing included."
  },
  {
   "property": "C65",
   "status": "proved",
   "theorems": [
    "c65_external_layer",
    "c65_internal_layer",
    "c65_permute",
    "c65_unsupported",
    "c65_bijective",
    "c65_shipped"
   ],
   "note": "For every supported width both linear layers multiply by the Poseidon2 matrices and permute is the specified sequence of rounds (other widths panic). For each of the eight shipped parameter sets, with their constants as transcribed text parsed by the modelled parser, permute is a bijection on states."
  },
  {
   "property": "C66",
   "status": "proved",
   "theorems": [
    "c66_outputs",
    "c66_panics",
    "c66_batch",
    "c66_squeeze_batch",
    "c66_capacity",
    "c66_shipped",
    "c66_trailing_zero"
   ],
   "note": "Every sequence of calls: outputs are a prefix of a stream determined by the absorbed sequence; panics iff something is absorbed after a squeeze; the index stays in the rate part; only the permutation touches the capacity. c66_trailing_zero records that there is no padding: sequences differing by a trailing zero within a block collide."
  },
  {
   "property": "C67",
   "status": "partial",
   "theorems": [
    "c67_rejected_nonce_not_consumed_refuted",
    "c67_rejected_nonce_consumes_one_unless_reverted_partial"
   ],
   "note": "REFUTED at library level: the nonce is incremented before the check (nonces.rs:103-118). Holds when the error reaches the transaction boundary."
  },
  {
   "property": "C68",
   "status": "proved",
   "theorems": [
    "c68_uri",
    "c68_event"
   ],
   "note": ""
  },
  {
   "property": "C69",
   "status": "proved",
   "theorems": [
    "c69_group",
    "c69_nonsingular"
   ],
   "note": "Associativity proved for all smooth points of any curve, singular curves included."
  },
  {
   "property": "C70",
   "status": "partial",
   "theorems": [
    "c70_standard_ids",
    "c70_library_ids",
    "c70_examples",
    "c70_invalid_id",
    "c70_access_control_refuted",
    "c70_access_control_partial",
    "c70_receiver_selectors"
   ],
   "note": "REFUTED for AccessControl only: its trait contains the guard only_role, so the published IAccessControl id 0x7965db0b is denied and 0x0edd8b6c answered instead. Proved for every other contract and all ids, with selectors computed by an executable Keccak-256."
  },
  {
   "property": "C71",
   "status": "proved",
   "theorems": [
    "c71_share_price_never_falls",
    "c71_claims_never_fall",
    "c71_claims_covered",
    "c71_hook_after_deposit_refuted",
    "c71_hook_before_payout_refuted"
   ],
   "note": "Trees of re-entrant calls of any depth; the refuted theorems show that the hook positions matter, as the comments in the source say."
  },
  {
   "property": "C72",
   "status": "proved",
   "theorems": [
    "c72_multi_proof_verifies",
    "c72_every_leaf_set_provable",
    "c72_complete_trees_exist"
   ],
   "note": "For every hash; complete trees in array layout."
  },
  {
   "property": "C73",
   "status": "proved",
   "theorems": [
    "c73_paused_calls_refused",
    "c73_like_the_plain_contract",
    "c73_paused_balances_frozen",
    "c73_tokens_reachable"
   ],
   "note": ""
  },
  {
   "property": "C74",
   "status": "partial",
   "theorems": [
    "c74_transfer_role_hash",
    "c74_transfer_from_guarded",
    "c74_make_admin",
    "c74_make_admin_iff",
    "c74_outsiders_change_no_membership",
    "c74_any_member_takes_over",
    "c74_role_admins_decide_refuted"
   ],
   "note": "REFUTED for the last clause: set_role_admin is public in the example, so any holder of any role can take every role. All other clauses proved."
  },
  {
   "property": "C75",
   "status": "partial",
   "theorems": [
    "c75_only_holder_or_operator_refuted",
    "c75_anybody_can_burn",
    "c75_transfers_authorized_partial"
   ],
   "note": "REFUTED: _burn and _burn_batch are exposed unguarded; transfers do need the holder or an operator."
  },
  {
   "property": "C76",
   "status": "partial",
   "theorems": [
    "c76_published_selectors",
    "c76_examples_dispatch",
    "c76_no_selector_clashes",
    "c76_guards_not_bypassed",
    "c76_wrapper_hook_refuted",
    "c76_wrapper_dispatch_partial",
    "c76_direct_wrapping_fails"
   ],
   "note": "Proved for 19 examples. False for the ERC-721 wrapper example: its hook is exported as onErc721Received, so the standard selector is not answered and direct wrapping by safeTransferFrom always fails; everything else about it holds."
  },
  {
   "property": "C77",
   "status": "proved",
   "theorems": [
    "c77_logs_are_readable",
    "c77_erc20_indexer",
    "c77_erc721_indexer",
    "c77_erc1155_indexer",
    "c77_access_indexer"
   ],
   "note": ""
  },
  {
   "property": "C78",
   "status": "partial",
   "theorems": [
    "c78_errors_are_readable",
    "c78_erc20_failures_are_readable",
    "c78_erc721_failures_are_readable",
    "c78_erc1155_failures_are_readable",
    "c78_access_failures_are_readable",
    "c78_reasons_are_the_tokens_own_refuted",
    "c78_safe_erc20_selectors_refuted"
   ],
   "note": "The last clause is false: a receiver's revert data is passed on and may imitate the token's own errors. The errors of SafeErc20 do not carry OpenZeppelin's selectors."
  },
  {
   "property": "C79",
   "status": "proved",
   "theorems": [
    "c79_vault_shares_are_a_token",
    "c79_vault_supply_is_sum",
    "c79_vault_shares_are_safe",
    "c79_vault_nothing_allowed_nothing_lost",
    "c79_deposit_over_any_asset",
    "c79_mint_over_any_asset",
    "c79_redeem_over_any_asset",
    "c79_withdraw_over_any_asset",
    "c79_wrapper_is_a_token",
    "c79_wrapped_tokens_are_safe",
    "c79_wrapper_backed_refuted",
    "c79_price_never_falls_refuted"
   ],
   "note": "For allowances other than the infinite one (2^256-1), which is never used up. The two refuted theorems record that backing (C10) and price (C13) need an honest asset."
  },
  {
   "property": "C80",
   "status": "partial",
   "theorems": [
    "c80_deployable",
    "c80_ownership_exact",
    "c80_logs_determine_owners",
    "c80_transfers_authorised_partial",
    "c80_only_owner_disposes_refuted",
    "c80_anybody_burns"
   ],
   "note": "Deployment, ownership, balances and logs proved; the last clause is false: `burn` of the example calls `_burn`, which checks no authority. Transfers do need the owner's consent."
  },
  {
   "property": "C81",
   "status": "proved",
   "theorems": [
    "c81_integers",
    "c81_example",
    "c81_inputs_modulo_prime",
    "c81_no_trivial_collisions_refuted"
   ],
   "note": "All eight parameter sets for all call sequences; the reference evaluates to the repository's test vectors (Examples). The last theorem records that inputs differing by the prime collide."
  },
  {
   "property": "C82",
   "status": "proved",
   "theorems": [
    "c82_value_sizes",
    "c82_solidity_rules",
    "c82_no_aliasing",
    "c82_fields_disjoint",
    "c82_store_load",
    "c82_storage_is_a_map",
    "c82_examples_wf",
    "c82_examples_no_aliasing",
    "c82_either_count",
    "c82_constructors",
    "c82_role_entry",
    "c82_consecutive_entries",
    "c82_declarations_refuted",
    "c82_erc1155_balances_refuted",
    "c82_erc20_nonces_refuted"
   ],
   "note": "That all declared variables are the Rust fields is refuted for erc20, erc1155 and erc1155-metadata-uri, as the statement says."
  },
  {
   "property": "C83",
   "status": "proved",
   "theorems": [
    "c83_spending_covered",
    "c83_passive_loss",
    "c83_untouched",
    "c83_presented_was_signed",
    "c83_messages_distinct"
   ],
   "note": "Unlimited (2^256-1) approvals are excluded by finite_grants, since they are never reduced."
  },
  {
   "property": "C84",
   "status": "proved",
   "theorems": [
    "c84_erc20",
    "c84_erc20_example",
    "c84_erc721",
    "c84_erc721_safe",
    "c84_erc1155",
    "c84_access_control",
    "c84_wrapper",
    "c84_vault"
   ],
   "note": "Exact outcome of every call, from every state; wrapper and vault over a token of the library, from reachable states."
  },
  {
   "property": "C85",
   "status": "proved",
   "theorems": [
    "c85_decoder_accepts_exactly_encodings",
    "c85_erc20_is_the_ideal_token",
    "c85_erc20_nothing_else",
    "c85_erc20_raw_histories_are_typed",
    "c85_erc20_supply_never_exceeds_cap",
    "c85_erc20_constants",
    "c85_token_answers_the_library"
   ],
   "note": "Codec and dispatch are the documented behaviour of the SDK and of alloy, which are not in the repository. Calldata shorter than 2^256 bytes."
  },
  {
   "property": "C86",
   "status": "proved",
   "theorems": [
    "c86_wallet_computes_the_separator",
    "c86_wallet_computes_the_digest",
    "c86_requests_unambiguous",
    "c86_permit_accepts_wallet_signatures",
    "c86_signature_for_anything_else_is_useless",
    "c86_type_hashes"
   ],
   "note": "wallet algorithm for flat structs (no nested structs or arrays); any hash function; type hashes with the real Keccak-256"
  },
  {
   "property": "C87",
   "status": "proved",
   "theorems": [
    "c87_erc721_is_the_ideal_register",
    "c87_erc721_computed_by_hand",
    "c87_erc721_nothing_else",
    "c87_raw_histories_are_typed",
    "c87_owner_enumeration",
    "c87_constants"
   ],
   "note": "callers are nonzero addresses, calldata shorter than 2^255 bytes, histories shorter than 2^256 calls; enumeration by owner only without self transfers (C41 shows it breaks otherwise)"
  },
  {
   "property": "C88",
   "status": "proved",
   "theorems": [
    "c88_permit_token_is_ideal",
    "c88_permit_nothing_else",
    "c88_domain_separator",
    "c88_sleeping_account",
    "c88_recover_by_bytes",
    "c88_signatures_on_chain",
    "c88_invalid_signature_reported_refuted",
    "c88_permits_on_chain"
   ],
   "note": "c88_invalid_signature_reported_refuted: the documented error for invalid signatures is not what callers get on a chain; the exact behaviour is in c88_signatures_on_chain and c88_permits_on_chain"
  },
  {
   "property": "C89",
   "status": "proved",
   "theorems": [
    "c89_vault_is_ideal",
    "c89_questions",
    "c89_nothing_else",
    "c89_sleeping_depositor",
    "c89_exit_is_open"
   ],
   "note": "the asset is a token written with the library (no hooks; C79 and C71 cover hostile and hooked assets on the typed level)"
  },
  {
   "property": "C90",
   "status": "proved",
   "theorems": [
    "c90_wrapper_is_ideal",
    "c90_nothing_else",
    "c90_backed",
    "c90_exit_is_open"
   ],
   "note": "the underlying is a token written with the library (C79 covers hostile ones on the typed level)"
  },
  {
   "property": "C91",
   "status": "proved",
   "theorems": [
    "c91_verify_by_bytes",
    "c91_multi_by_bytes",
    "c91_nothing_else",
    "c91_reasons_differ",
    "c91_siblings_verify",
    "c91_soundness",
    "c91_allow_list",
    "c91_listed_is_provable",
    "c91_multi_allow_list"
   ],
   "note": ""
  },
  {
   "property": "C92",
   "status": "proved",
   "theorems": [
    "c92_erc1155_is_the_ideal_collection",
    "c92_erc1155_computed_by_hand",
    "c92_many_balances",
    "c92_erc1155_nothing_else",
    "c92_what_was_moved",
    "c92_sleeping_holder",
    "c92_frozen",
    "c92_constants"
   ],
   "note": ""
  },
  {
   "property": "C93",
   "status": "proved",
   "theorems": [
    "c93_wallet_is_the_ideal",
    "c93_computed_by_hand",
    "c93_nothing_else",
    "c93_schedule_holds",
    "c93_what_release_does",
    "c93_what_token_release_does",
    "c93_nothing_lost",
    "c93_release_is_up_to_the_owner"
   ],
   "note": ""
  },
  {
   "property": "C94",
   "status": "proved",
   "theorems": [
    "c94_access_token_is_ideal",
    "c94_nothing_else",
    "c94_only_role",
    "c94_no_role_by_itself",
    "c94_roles_from_roles",
    "c94_any_member_takes_any_role",
    "c94_anybody_freezes_a_role",
    "c94_transfer_role_cannot_escalate_refuted"
   ],
   "note": "The refuted theorem records a consequence of the open setRoleAdmin."
  },
  {
   "property": "C95",
   "status": "proved",
   "theorems": [
    "c95_owner_is_ideal",
    "c95_owner_nothing_else",
    "c95_owner_guard_is_bypassed",
    "c95_owner_transfer_answers_nothing",
    "c95_owner_transfer_answers_a_flag_refuted",
    "c95_two_step_is_ideal",
    "c95_two_step_nothing_else",
    "c95_two_step_guard_is_bypassed",
    "c95_two_step_transfer_answers_nothing",
    "c95_two_step_transfer_answers_a_flag_refuted",
    "c95_owner_keeps",
    "c95_two_step_keeps",
    "c95_two_step_owner_has_called",
    "c95_owner_has_called_refuted"
   ],
   "note": "The refuted theorems record that the examples' transfer lacks ERC-20's result and that one-step ownership can go to an account that never called."
  },
  {
   "property": "C96",
   "status": "proved",
   "theorems": [
    "c96_only_the_supply_is_stale",
    "c96_no_difference_when_callbacks_keep_the_supply",
    "c96_balances_stay_within_the_supply",
    "c96_supply_is_the_sum_refuted",
    "c96_minting_in_a_callback_breaks_the_ledger"
   ],
   "note": "The statement includes the failures; the refuted theorem is the clause of C09 that fails when accessors remember."
  },
  {
   "property": "C97",
   "status": "proved",
   "theorems": [
    "c97_flash_token_keeps_a_ledger",
    "c97_loans_in_two_halves",
    "c97_nothing_else",
    "c97_supply_is_the_sum_refuted"
   ],
   "note": "The statement includes the failure. As C96, it takes for granted that the SDK's accessors remember."
  },
  {
   "property": "C98",
   "status": "proved",
   "theorems": [
    "c98_any_token",
    "c98_nothing_else",
    "c98_allowances_exact",
    "c98_stubborn_token_approves",
    "c98_over_ledgers"
   ],
   "note": "Answers of tokens are bytes."
  },
  {
   "property": "C99",
   "status": "proved",
   "theorems": [
    "c99_supply_is_the_ideal_collection",
    "c99_supply_computed_by_hand",
    "c99_the_numbers_add_up",
    "c99_anybody_burns_anything",
    "c99_many_balances",
    "c99_supply_nothing_else",
    "c99_constants"
   ],
   "note": "The total is exact only modulo 2^256 (C50); that anybody may burn is C75's finding."
  },
  {
   "property": "C100",
   "status": "proved",
   "theorems": [
    "from_utf8_iff",
    "text_unique",
    "c100_metadata_is_the_ideal_collection",
    "c100_metadata_computed_by_hand",
    "c100_uri_outlives_tokens",
    "c100_bad_text_refused",
    "c100_metadata_nothing_else",
    "c100_constants"
   ],
   "note": "The statement follows the requests of the history because what was set for tokens that do not exist is not shown by any getter."
  },
  {
   "property": "C101",
   "status": "proved",
   "theorems": [
    "c101_uri_is_the_ideal_collection",
    "c101_uri_computed_by_hand",
    "c101_no_tokens_ever",
    "c101_base_for_all",
    "c101_uri_nothing_else",
    "c101_constants"
   ],
   "note": "The statement follows the requests of the history because a base set before any link is not shown by any getter. Logs are not part of the entry-point model; the URI event is C68."
  },
  {
   "property": "C102",
   "status": "proved",
   "theorems": [
    "c102_consecutive_is_the_ideal_register",
    "c102_handed_out_in_order",
    "c102_consecutive_computed_by_hand",
    "c102_anybody_burns",
    "c102_consecutive_nothing_else",
    "c102_constants"
   ],
   "note": "Constructor arguments are taken as values, not as bytes (the Solidity constructor decodes them). Logs are not part of the entry-point model; those of this example are C80. That anybody burns is what the code does; the refutation of the stronger expectation is c80_only_owner_disposes_refuted."
  },
  {
   "property": "C103",
   "status": "proved",
   "theorems": [
    "c103_basic_is_the_ideal_token",
    "c103_basic_computed_by_hand",
    "c103_only_the_holder_spends",
    "c103_basic_nothing_else"
   ],
   "note": "Constructor arguments are values (the Solidity constructor decodes them). Logs are not part of the entry-point model; those of the ERC-20 functions are C04 and C77. That anybody mints is what this example does."
  },
  {
   "property": "C104",
   "status": "proved",
   "theorems": [
    "c104_poseidon_by_bytes",
    "c104_same_answer"
   ],
   "note": "Stated for a function f that is the model of the example at the shipped modulus and parameters; the existential quantifies over the proofs that the modulus is well-formed. The digest is the reference of C81."
  },
  {
   "property": "C105",
   "status": "proved",
   "theorems": [
    "c105_deposit",
    "c105_withdraw",
    "c105_complaints",
    "c105_hook",
    "c105_standard_hook",
    "c105_wrapped_tokens",
    "c105_not_a_collection_refuted",
    "c105_nothing_else"
   ],
   "note": "Foreign contracts are arbitrary functions of the call; batches are below 2^200 tokens, as any calldata is."
  }
 ]
}
