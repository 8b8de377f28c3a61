{"id": "C01", "title": "ERC-20 supply equals the sum of balances", "statement": "Starting from a freshly deployed token, after any sequence of transfer, transfer_from, approve, mint, burn and burn_from calls (successful or reverting, by any callers), total_supply() equals the exact mathematical sum of balance_of over all accounts; it never exceeds 2^256-1, the zero address holds nothing, and none of the unchecked additions/subtractions ever wraps.", "quantifier": "every finite history of calls, every caller, every address and 256-bit amount", "why_tests_cant": "Tests run a handful of short scripts; a lost or minted unit may need a particular interleaving, a self transfer, or amounts near 2^256 where the unchecked arithmetic would wrap.", "anchors": ["contracts/src/token/erc20/mod.rs: Erc20::_update, _mint, _burn, _transfer", "contracts/src/utils/math/storage/unchecked.rs", "contracts/src/token/erc20/extensions/burnable.rs"]}
{"id": "C02", "title": "ERC-20 transfer moves exactly the requested amount and nothing else", "statement": "transfer(to, v) and transfer_from(from, to, v) succeed exactly when neither party is the zero address, the sender holds at least v and (for transfer_from) the caller's allowance covers v; on success balances change by exactly v (nothing changes for a self transfer), every other balance, the supply and every other allowance are unchanged, and exactly one Transfer(from, to, v) event is emitted; otherwise the documented error is returned.", "quantifier": "every reachable state, caller, from, to and 256-bit value", "why_tests_cant": "The iff and the frame condition speak about every account, including ones a test never looks at, and about from = to aliasing.", "anchors": ["contracts/src/token/erc20/mod.rs: transfer, transfer_from, _transfer, _update, _spend_allowance"]}
{"id": "C03", "title": "Allowance is a hard budget for a spender", "statement": "As long as an owner does not itself call approve (or permit) for a spender and the allowance is not the infinite value 2^256-1, the total amount that the spender has moved or burned out of the owner's account over any history equals the decrease of allowance(owner, spender), hence never exceeds the initial allowance; the infinite allowance is never decreased.", "quantifier": "every history of calls between two approvals, every owner/spender pair", "why_tests_cant": "The budget is a property of whole histories mixing many callers and both transfer_from and burn_from; tests only check single spends.", "anchors": ["contracts/src/token/erc20/mod.rs: _spend_allowance, transfer_from, _approve", "contracts/src/token/erc20/extensions/burnable.rs: burn_from"]}
{"id": "C04", "title": "ERC-20 events are a complete ledger", "statement": "For every history of calls on a fresh token, replaying only the emitted Transfer events (zero address meaning mint/burn) over an empty ledger reconstructs exactly balance_of of every account and total_supply; and the last Approval event for (owner, spender) together with later spends bounds the allowance.", "quantifier": "every finite history of calls", "why_tests_cant": "An indexer depends on every code path emitting exactly the right event; a missing event on one path is invisible to tests which assert on return values.", "anchors": ["contracts/src/token/erc20/mod.rs: _update, _approve, Transfer, Approval"]}
{"id": "C05", "title": "ERC-20 failing calls change nothing observable", "statement": "Every ERC-20 call that returns an error or panics, executed as a transaction, leaves all balances, allowances, supply and the event log unchanged; moreover at library level (without relying on the EVM revert) transfer, approve, mint and burn leave storage untouched on error, while transfer_from and burn_from are allowed to have already spent the allowance.", "quantifier": "every state and every call", "why_tests_cant": "Partial writes before an error path only show when a caller catches the error; tests rely on the VM revert.", "anchors": ["contracts/src/token/erc20/mod.rs: transfer_from, _spend_allowance, _update"]}
{"id": "C06", "title": "Mint and burn have exact effects and overflow is rejected", "statement": "_mint(a, v) for a nonzero account succeeds iff total supply + v fits 256 bits, adds v to a's balance and to the supply and nothing else; _burn(a, v) for a nonzero account succeeds iff a holds at least v, and removes v from both; minting to / burning from the zero address fails with InvalidReceiver / InvalidSender.", "quantifier": "every reachable state, account and 256-bit value", "why_tests_cant": "Overflow boundaries around 2^256 and the sum-of-balances reasoning that justifies the unchecked additions cannot be enumerated.", "anchors": ["contracts/src/token/erc20/mod.rs: _mint, _burn, _update", "contracts/src/utils/math/storage/checked.rs"]}
{"id": "C07", "title": "Capped, pausable token never exceeds its cap and is frozen while paused", "statement": "For the ERC-20 composed with Capped and Pausable as in the shipped example, total_supply() <= cap() after every history of calls, and while paused no call other than unpause (and approve) changes any balance or the supply.", "quantifier": "every history of calls, every cap", "why_tests_cant": "The cap is not enforced by the Capped extension itself but by the way mint composes with it; only an invariant over all entry points shows nothing bypasses it.", "anchors": ["examples/erc20/src/lib.rs", "contracts/src/token/erc20/extensions/capped.rs", "contracts/src/utils/pausable.rs"]}
{"id": "C08", "title": "A permit signature authorises exactly one approval", "statement": "permit(owner, spender, value, deadline, sig) succeeds only if the block timestamp is not after deadline and the signature recovers to owner on the EIP-712 digest containing owner's current nonce; success sets allowance(owner, spender) = value, increases nonces(owner) by exactly one and changes nothing else; therefore over any history each (owner, nonce) digest is consumed by at most one successful permit, and nonces never decrease.", "quantifier": "every history of permits and other calls, every signature and recovery function", "why_tests_cant": "Replay protection is a statement about all later histories, and the recovery function is adversarial.", "anchors": ["contracts/src/token/erc20/extensions/permit.rs: permit", "contracts/src/utils/nonces.rs", "contracts/src/utils/cryptography/eip712.rs"]}
{"id": "C09", "title": "Flash loans are repaid or reverted under arbitrary reentrancy", "statement": "Whatever calls the borrower makes from inside its callback (including transfers, burns, approvals and nested flash loans), a flash_loan that succeeds leaves supply = sum of balances, burns exactly value (+ fee when no fee receiver is set) from the receiver and moves the fee to the fee receiver otherwise; relative to the state at the end of the callback, no other account is affected and total supply is back to supply-after-callback minus what was burned; a loan that is not repaid reverts as a whole.", "quantifier": "every borrower behaviour (tree of nested calls), value and fee", "why_tests_cant": "Tests use one or two hand-written borrowers; the guarantee is against all of them, including ones that re-enter the lender.", "anchors": ["contracts/src/token/erc20/extensions/flash_mint.rs: flash_loan, max_flash_loan, flash_fee"]}
{"id": "C10", "title": "Wrapped ERC-20 is always fully backed", "statement": "With an honest ERC-20 underlying, after every interleaving of wrapper calls and arbitrary calls to the underlying by others, the wrapper's total supply is at most the underlying balance held by the wrapper; deposit_for and withdraw_to exchange exactly one for one, _recover mints exactly the excess, and any holder can withdraw its full balance.", "quantifier": "every interleaved history over the two contracts", "why_tests_cant": "Backing is a two-contract invariant over all interleavings, including direct donations to and self-wrapping attempts by the wrapper.", "anchors": ["contracts/src/token/erc20/extensions/wrapper.rs: deposit_for, withdraw_to, _recover"]}
{"id": "C11", "title": "ERC-4626 conversions round in favour of the vault", "statement": "With T total assets, S total shares and decimals offset d: preview_deposit and preview_redeem return the floor, preview_mint and preview_withdraw the ceiling, of the exact rational a*(S+10^d)/(T+1) (resp. s*(T+1)/(S+10^d)); they panic exactly when that result, S+10^d or T+1 does not fit 256 bits; conversions are monotone in their argument.", "quantifier": "every total assets, supply, offset and 256-bit amount", "why_tests_cant": "Rounding-direction errors are one-unit effects for specific residues; enumeration over 256-bit inputs is impossible.", "anchors": ["contracts/src/token/erc20/extensions/erc4626.rs: _convert_to_shares, _convert_to_assets, preview_*", "contracts/src/utils/math/alloy.rs: mul_div"]}
{"id": "C12", "title": "ERC-4626 round trips are never profitable", "statement": "Depositing assets and immediately redeeming the received shares returns at most the assets paid in; minting shares and withdrawing what was paid burns at least the shares received; withdraw-then-deposit and redeem-then-mint are also never profitable.", "quantifier": "every vault state, amount and offset", "why_tests_cant": "A profitable cycle needs specific rounding residues; tests sample few.", "anchors": ["contracts/src/token/erc20/extensions/erc4626.rs: deposit, mint, withdraw, redeem"]}
{"id": "C13", "title": "ERC-4626 share price never decreases", "statement": "Over every history of deposits, mints, withdrawals, redemptions, share transfers and asset donations, the exchange rate (total_assets+1)/(total_supply+10^d), compared as exact rationals, never decreases.", "quantifier": "every history and every interleaving of users", "why_tests_cant": "It is an invariant over unbounded histories with rounding at each step.", "anchors": ["contracts/src/token/erc20/extensions/erc4626.rs: _deposit, _withdraw, _convert_to_shares, _convert_to_assets"]}
{"id": "C14", "title": "ERC-4626 operations match their previews and limits", "statement": "deposit/mint/withdraw/redeem move exactly the amounts announced by the corresponding preview in the same state, between exactly the named accounts, and emit one Deposit/Withdraw event with those amounts; requests above max_withdraw/max_redeem fail with the documented error without effect, and redeeming max_redeem or withdrawing max_withdraw by the owner always succeeds on an honest asset.", "quantifier": "every reachable vault state, caller, receiver, owner and amount", "why_tests_cant": "Success of the maximum withdrawal depends on rounding of two nested conversions for all states.", "anchors": ["contracts/src/token/erc20/extensions/erc4626.rs: max_withdraw, max_redeem, withdraw, redeem, deposit, mint"]}
{"id": "C15", "title": "ERC-4626 vault is always solvent", "statement": "The assets all holders together could redeem one after another, in any order, never exceed the vault's total assets, and after any history every holder's full redemption succeeds.", "quantifier": "every history, every order of redemption", "why_tests_cant": "Quantifies over permutations of holders and all rounding outcomes.", "anchors": ["contracts/src/token/erc20/extensions/erc4626.rs: redeem, _convert_to_assets"]}
{"id": "C16", "title": "ERC-4626 inflation attack is bounded by the virtual offset", "statement": "If an attacker holding all real shares donates D assets before a victim deposits a assets, the victim's loss from rounding is less than the price of one share, (T+1)/(S+10^d) rounded up; in particular with offset d the attacker must donate more than 10^d times the amount it can make the victim lose.", "quantifier": "every initial supply, donation, victim deposit and offset", "why_tests_cant": "The bound is an inequality over three unbounded quantities.", "anchors": ["contracts/src/token/erc20/extensions/erc4626.rs: _convert_to_shares, decimals offset"]}
{"id": "C17", "title": "SafeErc20 reports success only for a call that really succeeded", "statement": "safe_transfer / safe_transfer_from return Ok iff the token address has code, the low-level call did not revert and its return data is either empty or the 32-byte encoding of true; every other behaviour of the token (no code, revert, false, garbage, short data) yields SafeErc20FailedOperation. safe_increase_allowance(v) leaves allowance old+v and safe_decrease_allowance(v) leaves old-v or fails without effect; force_approve makes the allowance exactly v also on tokens that demand a zero reset.", "quantifier": "every behaviour of the called token (all return data and all revert decisions)", "why_tests_cant": "The token is an arbitrary contract; tests use three mocks.", "anchors": ["contracts/src/token/erc20/utils/safe_erc20.rs: call_optional_return, encodes_true, safe_transfer, safe_increase_allowance, safe_decrease_allowance, force_approve"]}
{"id": "C18", "title": "Vesting schedule is monotone and exact", "statement": "For a fixed total allocation the vested amount is 0 before start, total from end on, floor(total*(t-start)/duration) in between, is non-decreasing in t and in total, never exceeds total, and the only failure is the overflow of total*(t-start).", "quantifier": "every timestamp, allocation, start and duration (64-bit)", "why_tests_cant": "Monotonicity across the start/end boundaries and overflow region concerns all pairs of timestamps.", "anchors": ["contracts/src/finance/vesting_wallet.rs: vesting_schedule, vested_amount_eth, vested_amount_erc20"]}
{"id": "C19", "title": "Vesting wallet releases exactly what is vested, never more", "statement": "Over every history of deposits, time advances and release calls (by anyone), released + balance is the total ever received, each release pays the owner exactly vested - released, released never exceeds vested and never decreases, and once time >= end a release leaves the wallet empty; two releases at the same time pay nothing the second time.", "quantifier": "every history of deposits, clock advances and releases, for Ether and for each ERC-20", "why_tests_cant": "A history property with unboundedly many deposits arriving mid-schedule.", "anchors": ["contracts/src/finance/vesting_wallet.rs: release_eth, release_erc20, releasable_eth, releasable_erc20, released_eth, released_erc20"]}
{"id": "C20", "title": "Vesting release is safe under reentrancy", "statement": "If the owner re-enters release during the Ether payment, the total paid out over the whole nested execution is still exactly the vested amount, because the released counter is advanced before the call.", "quantifier": "every depth of re-entrant release calls", "why_tests_cant": "Unbounded nesting of adversarial calls.", "anchors": ["contracts/src/finance/vesting_wallet.rs: release_eth"]}
{"id": "C21", "title": "Vesting view never reports more than can be released", "statement": "releasable() equals the amount that release() would pay, in particular it never exceeds the balance held by the wallet, for every token behaviour including tokens whose balance can decrease.", "quantifier": "every balance and released counter", "why_tests_cant": "Needs a token whose balance decreases after a release (rebasing/fee), a case the mocks never produce, and the subtraction there is unchecked.", "anchors": ["contracts/src/finance/vesting_wallet.rs: releasable_erc20"]}
{"id": "C22", "title": "Roles change only through their admin", "statement": "Over every history of access-control calls, an account gains a role only by grant_role called by a holder of that role's admin at that moment, and loses it only by revoke_role called by a holder of the admin role or by its own renounce_role; failing calls change nothing and only role/account named in the call is affected.", "quantifier": "every history, every role graph (admin-of relation) and caller", "why_tests_cant": "Role graphs can be cyclic and the statement is over all histories.", "anchors": ["contracts/src/access/control.rs: grant_role, revoke_role, renounce_role, _grant_role, _revoke_role, _set_role_admin"]}
{"id": "C23", "title": "Role events mirror role membership", "statement": "RoleGranted/RoleRevoked are emitted exactly when membership actually changes, so replaying them reconstructs has_role for all roles and accounts; granting twice or revoking a non-member emits nothing.", "quantifier": "every history of calls", "why_tests_cant": "Completeness of the log is a statement over all histories.", "anchors": ["contracts/src/access/control.rs: _grant_role, _revoke_role"]}
{"id": "C24", "title": "Ownable: only the owner can hand over control, and renouncing is final", "statement": "The owner changes only by a successful transfer_ownership to a nonzero address or renounce_ownership by the current owner; every such call by anyone else fails without effect; once the owner is the zero address (renounced) no sequence of calls by non-zero callers ever changes it again.", "quantifier": "every history of calls by every caller", "why_tests_cant": "Finality of renouncement quantifies over all future histories.", "anchors": ["contracts/src/access/ownable.rs: transfer_ownership, renounce_ownership, only_owner, _transfer_ownership"]}
{"id": "C25", "title": "Two-step ownership needs the nominee's own acceptance", "statement": "With Ownable2Step the owner becomes a only if the owner in office nominated a, and a itself called accept_ownership while still the pending nominee; re-nomination or renouncing cancels the previous nomination, and the pending owner is zero right after every ownership change.", "quantifier": "every history of calls", "why_tests_cant": "A temporal property: every acceptance is preceded by a nomination that was not cancelled, over all histories.", "anchors": ["contracts/src/access/ownable_two_step.rs: transfer_ownership, accept_ownership, renounce_ownership"]}
{"id": "C26", "title": "Pausable state machine", "statement": "pause succeeds iff not paused, unpause iff paused; when_paused / when_not_paused agree with paused(); over every history the state equals the kind of the last successful pause/unpause, and Paused/Unpaused events alternate.", "quantifier": "every history", "why_tests_cant": "Alternation is over all histories.", "anchors": ["contracts/src/utils/pausable.rs"]}
{"id": "C27", "title": "Nonces are consumed in order, exactly once", "statement": "use_nonce returns the current nonce and increments it by one; over every history the values returned for an account are 0,1,2,... without gap or repetition and accounts do not interfere; use_checked_nonce(o, n) succeeds iff n is the current nonce.", "quantifier": "every history, every account", "why_tests_cant": "Ordering without gap or repetition is a property of whole histories interleaving many accounts.", "anchors": ["contracts/src/utils/nonces.rs: use_nonce, use_checked_nonce"]}
{"id": "C28", "title": "BitMap behaves as a set of 256-bit indices", "statement": "After any sequence of set/unset/set_to calls, get(i) is true iff the last operation touching index i set it; different indices never interfere, for all 2^256 indices.", "quantifier": "every sequence of operations, every pair of indices", "why_tests_cant": "Non-interference of bit packing must hold for all pairs of 256-bit indices.", "anchors": ["contracts/src/utils/structs/bitmap.rs"]}
{"id": "C29", "title": "Checkpoint lookups return the value in force at a key", "statement": "For every trace built by push: keys are strictly increasing, upper_lookup(k) and upper_lookup_recent(k) both return the value pushed last with key <= k (0 if none), lower_lookup(k) returns the value of the first checkpoint with key >= k (0 if none), latest/length/at agree with the history, and pushing at an older key fails with CheckpointUnorderedInsertion and no effect. All index arithmetic is free of overflow and out-of-bounds access.", "quantifier": "every sequence of pushes, every query key", "why_tests_cant": "Binary search boundary errors show only for particular lengths/positions; the sqrt-based recent search has length dependent behaviour.", "anchors": ["contracts/src/utils/structs/checkpoints/mod.rs: push, upper_lookup, upper_lookup_recent, lower_lookup, _insert, _upper_binary_lookup, _lower_binary_lookup"]}
{"id": "C30", "title": "Integer square root is exact", "statement": "For every 256-bit a, sqrt(a) returns the unique r with r*r <= a < (r+1)*(r+1), without any intermediate overflow or division by zero.", "quantifier": "all 2^256 inputs", "why_tests_cant": "Six fixed Newton iterations must be enough for every input; worst cases cannot be found by sampling.", "anchors": ["contracts/src/utils/math/alloy.rs: sqrt"]}
{"id": "C31", "title": "average and mul_div are exact", "statement": "average(a,b) = floor((a+b)/2) without overflow; mul_div(a,b,d,Floor/Ceil) is the exact floor/ceiling of a*b/d over the unbounded integers whenever that fits 256 bits, and panics exactly when d = 0 or it does not fit.", "quantifier": "all 256-bit inputs", "why_tests_cant": "Full-width intermediate products and boundary cases.", "anchors": ["contracts/src/utils/math/alloy.rs: average, mul_div"]}
{"id": "C32", "title": "ERC-721 balances count owned tokens", "statement": "After every history of mints, burns, transfers and approvals, balance_of(a) equals the number of token ids whose owner_of is a, each token has at most one owner, and no counter ever wraps.", "quantifier": "every history and every account", "why_tests_cant": "Counting over all token ids for all histories.", "anchors": ["contracts/src/token/erc721/mod.rs: _update, _mint, _burn, _transfer, _increase_balance"]}
{"id": "C33", "title": "ERC-721 tokens move only with authorisation", "statement": "transfer_from / safe_transfer_from(from, to, id) succeed only if from is the owner, to is nonzero, and the caller is the owner, an operator approved by the owner, or the approved address of that token; the effect is exactly the change of owner of id and the two balances; every other token is untouched, the token's single approval is cleared and one Transfer event is emitted.", "quantifier": "every reachable state, caller and token", "why_tests_cant": "Frame conditions over all tokens and authorisation over all callers/approval histories.", "anchors": ["contracts/src/token/erc721/mod.rs: transfer_from, _update, _is_authorized, _check_authorized"]}
{"id": "C34", "title": "ERC-721 approvals do not survive a change of owner", "statement": "After any successful transfer or burn of a token, get_approved(id) is zero (or the token does not exist) until the new owner or its operator approves again; only the owner or one of its operators can set the approval; operator approvals belong to the granting owner only.", "quantifier": "every history following a transfer", "why_tests_cant": "A stale approval is exploitable only in later histories.", "anchors": ["contracts/src/token/erc721/mod.rs: _approve, _update, set_approval_for_all, get_approved"]}
{"id": "C35", "title": "ERC-721 mint and burn are one-shot", "statement": "_mint(to, id) succeeds iff to is nonzero and id has no owner; _burn(id) iff id has an owner; a token cannot be minted twice without a burn in between, and ownerless tokens answer NonexistentToken to owner_of/get_approved.", "quantifier": "every history", "why_tests_cant": "History property.", "anchors": ["contracts/src/token/erc721/mod.rs: _mint, _burn, _require_owned"]}
{"id": "C36", "title": "ERC-721 events determine ownership", "statement": "Replaying the Transfer events of any history reconstructs owner_of for all tokens.", "quantifier": "every history", "why_tests_cant": "Completeness of events over all code paths.", "anchors": ["contracts/src/token/erc721/mod.rs: _update, Transfer"]}
{"id": "C37", "title": "ERC-721 safe transfers deliver only to accepting receivers", "statement": "safe_transfer_from and _safe_mint succeed only if the recipient has no code or its on_erc721_received call returns exactly the required selector with the true operator/from/id/data; any other receiver behaviour reverts the whole transfer.", "quantifier": "every receiver behaviour", "why_tests_cant": "Receiver is an arbitrary contract.", "anchors": ["contracts/src/token/erc721/mod.rs: _check_on_erc721_received, safe_transfer_from, _safe_mint"]}
{"id": "C38", "title": "Consecutive batch minting assigns exactly the batch", "statement": "After a sequence of _mint_consecutive batches (in order), owner_of(id) for id in a batch is that batch's recipient until the token is transferred or burned, ids outside all batches have no owner, balances equal the number of owned ids, and batches are disjoint and contiguous.", "quantifier": "every sequence of batches, transfers and burns", "why_tests_cant": "Ownership is computed by binary search over checkpoints combined with burn bits and overrides; batch boundaries and histories are unbounded.", "anchors": ["contracts/src/token/erc721/extensions/consecutive.rs: _mint_consecutive, _owner_of, _update, _next_consecutive_id"]}
{"id": "C39", "title": "Consecutive extension keeps single mints and batches apart", "statement": "For every interleaving of single _mint and batch _mint_consecutive calls, balances still count owned ids and a batch never re-assigns an id that is already owned.", "quantifier": "every interleaving of single and batch mints", "why_tests_cant": "Needs a specific interleaving (single mint of a future batch id), which the Solidity original forbids at run time.", "anchors": ["contracts/src/token/erc721/extensions/consecutive.rs: _mint, _mint_consecutive, ForbiddenMint, ForbiddenBatchMint"]}
{"id": "C40", "title": "Enumerable lists are exact for nonzero tokens", "statement": "With the extension hooks called as documented after mint, burn and transfer between different accounts, for every history the tokens returned by token_of_owner_by_index for 0..balance are exactly the owner's tokens without repetition, token_by_index for 0..total_supply exactly all tokens, and total_supply counts existing tokens.", "quantifier": "every history of mints, burns and transfers", "why_tests_cant": "Swap-and-pop bookkeeping errors need particular removal orders.", "anchors": ["contracts/src/token/erc721/extensions/enumerable.rs: _add_token_to_owner_enumeration, _remove_token_from_owner_enumeration, _add_token_to_all_tokens_enumeration, _remove_token_from_all_tokens_enumeration"]}
{"id": "C41", "title": "Every owned token is enumerable, including id 0, and self transfers are harmless", "statement": "token_of_owner_by_index(owner, i) returns a token for every i < balance_of(owner), whichever ids are owned; a transfer of a token to its current owner leaves the enumeration unchanged.", "quantifier": "every id (including 0) and every transfer (including from = to)", "why_tests_cant": "Tests never mint id 0 as an enumerated token nor self-transfer a token that is not last.", "anchors": ["contracts/src/token/erc721/extensions/enumerable.rs: token_of_owner_by_index", "examples/erc721/src/lib.rs: transfer_from"]}
{"id": "C42", "title": "Wrapped ERC-721 tokens are backed one to one", "statement": "With an honest underlying collection, after every interleaving of wrapper calls and underlying calls by others, every existing wrapped id's underlying token is owned by the wrapper; withdraw_to gives the underlying to the named account and burns the wrapped token atomically; only authorised holders can withdraw.", "quantifier": "every interleaved history over the two contracts", "why_tests_cant": "Two-contract invariant including batch operations and the on_erc721_received path.", "anchors": ["contracts/src/token/erc721/extensions/wrapper.rs: deposit_for, withdraw_to, on_erc721_received, _recover"]}
{"id": "C43", "title": "Token URIs identify tokens", "statement": "token_uri(id) is the empty string when no base URI is set, otherwise base_uri followed by the decimal representation of id, which is distinct for distinct ids; with URI storage, the result is the stored suffix alone without a base URI, base followed by the stored suffix when both are set, base followed by the decimal id when no suffix was stored; both fail for nonexistent tokens.", "quantifier": "every id and base URI", "why_tests_cant": "Injectivity is over all pairs of 256-bit ids.", "anchors": ["contracts/src/token/erc721/extensions/metadata.rs: token_uri", "contracts/src/token/erc721/extensions/uri_storage.rs"]}
{"id": "C44", "title": "ERC-1155 conserves every token id", "statement": "After every history of single and batch mints, burns and transfers, for each id the sum of balances changes only by successful mints and burns, by exactly their amounts; no credit ever wraps (overflow panics), no debit goes below zero.", "quantifier": "every history, every id, batches of every length with repeated ids", "why_tests_cant": "Batches with repeated ids and self transfers of any length.", "anchors": ["contracts/src/token/erc1155/mod.rs: _update, do_update"]}
{"id": "C45", "title": "ERC-1155 batches are atomic and equal their sequential execution", "statement": "A batch transfer/mint/burn succeeds iff performing its elements one after the other succeeds, and then has the same effect on balances; otherwise (one bad element, length mismatch) the whole call fails and, as a transaction, changes nothing.", "quantifier": "batches of every length", "why_tests_cant": "Unbounded batch length, repeated ids.", "anchors": ["contracts/src/token/erc1155/mod.rs: _update, safe_batch_transfer_from, _mint_batch, _burn_batch, require_equal_arrays_length"]}
{"id": "C46", "title": "ERC-1155 only holders and their operators can spend", "statement": "safe_transfer_from, safe_batch_transfer_from, burn and burn_batch fail unless the caller is the holder or an operator approved by the holder at that moment; approvals are changed only by the holder's own set_approval_for_all.", "quantifier": "every history and caller", "why_tests_cant": "Authorisation over all histories.", "anchors": ["contracts/src/token/erc1155/mod.rs: authorize_transfer, set_approval_for_all", "contracts/src/token/erc1155/extensions/burnable.rs"]}
{"id": "C47", "title": "ERC-1155 receivers must accept", "statement": "Transfers and mints to a contract succeed only if the receiver's hook returns the required selector (single hook for one element, batch hook otherwise) for exactly the transferred ids and values; otherwise the call fails.", "quantifier": "every receiver behaviour and batch", "why_tests_cant": "Arbitrary receiver.", "anchors": ["contracts/src/token/erc1155/mod.rs: _check_on_erc1155_received, _update_with_acceptance_check"]}
{"id": "C48", "title": "ERC-1155 balance_of_batch agrees with balance_of, and events replay to balances", "statement": "balance_of_batch returns exactly the list of balance_of results (error iff lengths differ), and replaying TransferSingle/TransferBatch events of any history reconstructs all balances.", "quantifier": "every history and query", "why_tests_cant": "Completeness of events, list lengths.", "anchors": ["contracts/src/token/erc1155/mod.rs: balance_of_batch, _update"]}
{"id": "C49", "title": "ERC-1155 Supply tracks per-id supply", "statement": "Used only through the Supply extension's entry points, total_supply(id) equals the sum of balances of id over all accounts after every history, exists(id) iff that sum is nonzero.", "quantifier": "every history through the extension", "why_tests_cant": "Batches with repeated ids, unchecked subtractions.", "anchors": ["contracts/src/token/erc1155/extensions/supply.rs: _update, total_supply, exists"]}
{"id": "C50", "title": "ERC-1155 total_supply_all is the sum over ids", "statement": "total_supply_all() equals the mathematical sum of total_supply(id) over all ids after every history; a mint that would overflow it is rejected.", "quantifier": "every history", "why_tests_cant": "The violation needs a batch whose values sum beyond 2^256, which tests never use; the sum is computed with wrapping addition.", "anchors": ["contracts/src/token/erc1155/extensions/supply.rs: _update, total_supply_all"]}
{"id": "C51", "title": "ERC-2981 royalty never exceeds the sale price", "statement": "As long as royalties are configured through the setters with the current denominator, royalty_info(id, price) returns floor(price*fraction/denominator) <= price and the token specific receiver if set, else the default; it fails only when price*fraction overflows; the setters reject fractions above the denominator and zero receivers without effect.", "quantifier": "every price, id and configuration history", "why_tests_cant": "256-bit prices, histories of set/reset.", "anchors": ["contracts/src/token/common/erc2981.rs: royalty_info, _set_default_royalty, _set_token_royalty, _reset_token_royalty"]}
{"id": "C52", "title": "ECDSA accepts only canonical signatures", "statement": "recover(hash, v, r, s) succeeds only for s in the lower half of the group order and returns a nonzero address; therefore for every accepted signature its malleated twin (n - s) is rejected; v in {0,1} is rejected; a failing precompile never yields an address.", "quantifier": "every hash, v, r, s and precompile behaviour", "why_tests_cant": "The rejected set is astronomically large; precompile output is external.", "anchors": ["contracts/src/utils/cryptography/ecdsa.rs: recover, _recover, check_if_malleable, SIGNATURE_S_UPPER_BOUND"]}
{"id": "C53", "title": "EIP-712 digests are unambiguous", "statement": "to_typed_data_hash(sep, h) hashes the 66 bytes 0x19 0x01 sep h; distinct (sep, h) pairs give distinct preimages, and the domain separator preimage determines chain id, verifying contract, name and version hashes.", "quantifier": "every pair of domain separators and struct hashes", "why_tests_cant": "Injectivity over all pairs.", "anchors": ["contracts/src/utils/cryptography/eip712.rs: to_typed_data_hash, domain_separator_v4"]}
{"id": "C54", "title": "Merkle proofs: completeness", "statement": "For every binary Merkle tree (any shape) built with the sorted-pair hash, the sibling path of any leaf verifies against the root.", "quantifier": "every tree and leaf", "why_tests_cant": "Unbounded trees.", "anchors": ["lib/crypto/src/merkle.rs: verify_with_builder, verify", "lib/crypto/src/hash.rs: commutative_hash_pair"]}
{"id": "C55", "title": "Merkle proofs: soundness up to hash collisions", "statement": "If verify(proof, root(tree), leaf) accepts, then leaf is the hash of a node of the tree lying on a path of the proof's length, or the run exhibits an explicit collision/preimage of the pair hash; the order of siblings never matters.", "quantifier": "every tree, proof, leaf, and every hash function", "why_tests_cant": "Adversarial proofs of every length.", "anchors": ["lib/crypto/src/merkle.rs: verify_with_builder"]}
{"id": "C56", "title": "Merkle multi proofs: total, and each leaf individually provable", "statement": "verify_multi_proof never panics; it returns an error exactly for the malformed inputs, and whenever it returns true every one of the given leaves has an ordinary single proof that verify accepts against the same root.", "quantifier": "every proof, flags, leaves and hash function", "why_tests_cant": "Index bookkeeping between three arrays driven by adversarial flags.", "anchors": ["lib/crypto/src/merkle.rs: verify_multi_proof_with_builder"]}
{"id": "C57", "title": "Multi-limb integers compute exact arithmetic", "statement": "For every number of limbs N: addition, subtraction, doubling, halving, comparison, widening multiplication, bit access, bit-length and bitwise operations on Uint<N> equal the mathematical operations on the represented integers modulo 2^(64N), with carry/borrow flags exactly signalling overflow; the wasm and native widening multiplication agree.", "quantifier": "every N and all limb values", "why_tests_cant": "Carry chains fail only on specific limb patterns.", "anchors": ["lib/crypto/src/arithmetic/uint.rs", "lib/crypto/src/arithmetic/limb.rs"]}
{"id": "C58", "title": "Multi-limb remainder is exact", "statement": "WideUint::ct_rem(m) returns the mathematical remainder of the 2N-limb value for every nonzero modulus.", "quantifier": "every N, value and modulus", "why_tests_cant": "Bit-serial division over all values; the borrow/carry corner when the top bit is set.", "anchors": ["lib/crypto/src/arithmetic/uint.rs: WideUint::ct_rem, ct_num_bits, ct_get_bit"]}
{"id": "C59", "title": "Number parsing and byte encoding round trip", "statement": "from_str_radix and from_str_hex return the denoted number for every valid string below 2^(64N) (and reject invalid digits), into_bytes_le and ct_from_le_slice are inverse, and bit iterators enumerate exactly the binary expansion.", "quantifier": "every string/number", "why_tests_cant": "All strings and lengths.", "anchors": ["lib/crypto/src/arithmetic/uint.rs: from_str_radix, from_str_hex, parse_digit, into_bytes_le, ct_from_le_slice", "lib/crypto/src/bits.rs"]}
{"id": "C60", "title": "Prime field elements implement Z/p", "statement": "For every odd modulus (with or without a spare bit) and any N: from_bigint followed by into_bigint is reduction mod p, and +, -, *, negation, doubling, squaring, sum_of_products, pow on field elements correspond to the same operations in Z/p; the representation is always below p so equality of elements is equality mod p.", "quantifier": "every modulus, N and operands", "why_tests_cant": "Montgomery reduction carry handling fails only on rare operands, and the no-spare-bit branch differs.", "anchors": ["lib/crypto/src/field/fp.rs: add_assign, sub_assign, ct_mul, widening_montgomery_reduction, montgomery_reduction, from_bigint, into_bigint, R, R2, INV", "lib/crypto/src/field/mod.rs: pow"]}
{"id": "C61", "title": "Field inversion is correct and terminates", "statement": "For a prime modulus, inverse(a) terminates for every nonzero a and returns the b with a*b = 1; it returns None exactly for zero; division is multiplication by that inverse.", "quantifier": "every prime modulus and every element", "why_tests_cant": "Termination of the binary extended gcd for all inputs.", "anchors": ["lib/crypto/src/field/fp.rs: inverse, Div"]}
{"id": "C62", "title": "Declared field parameters are what they claim", "statement": "Each shipped field modulus (Vesta, BabyBear, BLS12, BN256, Goldilocks, Pallas) is prime and the declared GENERATOR generates the full multiplicative group of the field.", "quantifier": "every shipped field instance", "why_tests_cant": "Primality of 255-bit numbers and the order of an element in the group cannot be established by running the arithmetic on samples; it needs a certificate.", "anchors": ["lib/crypto/src/field/instance.rs"]}
{"id": "C63", "title": "Curve operations stay on the curve and agree with the chord-tangent law", "statement": "For every short Weierstrass curve: doubling, mixed addition, projective addition and negation of projective points map points on the curve to points on the curve and their affine images satisfy the chord-and-tangent formulas, including all special cases (identity, equal points, opposite points, 2-torsion); results do not depend on the projective representative.", "quantifier": "every field, curve coefficients and points", "why_tests_cant": "Exceptional cases and representative independence range over all field elements.", "anchors": ["lib/crypto/src/curve/sw/projective.rs: double_in_place, add_assign, neg, eq", "lib/crypto/src/curve/sw/affine.rs: is_on_curve, From<Projective>"]}
{"id": "C64", "title": "Scalar multiplication is repeated addition", "statement": "mul_bigint(n) (affine, projective and mul_bits_be) computes the n-fold group operation for every scalar, independently of leading zero bits, and batch normalisation equals point-wise conversion to affine.", "quantifier": "every scalar and point, every batch with zeros anywhere", "why_tests_cant": "All scalars; batch inversion index bookkeeping.", "anchors": ["lib/crypto/src/curve/sw/mod.rs: sw_double_and_add_affine, sw_double_and_add_projective", "lib/crypto/src/curve/mod.rs: mul_bits_be, batch_inversion"]}
{"id": "C65", "title": "Poseidon2 permutation is the specified one and is a permutation", "statement": "For every supported width the external and internal linear layers compute multiplication by the Poseidon2 matrices; permute applies the specified sequence of rounds, and for the shipped parameters is injective on states (no two states collide under permute).", "quantifier": "every state vector", "why_tests_cant": "Injectivity is over p^t states.", "anchors": ["lib/crypto/src/poseidon2/mod.rs: permute, matmul_external, matmul_internal, matmul_m4", "lib/crypto/src/poseidon2/instance"]}
{"id": "C66", "title": "Poseidon2 sponge absorbs and squeezes in order", "statement": "absorb_batch equals element-wise absorb; squeeze outputs depend only on the absorbed sequence; absorbing after squeezing panics; indices never leave the rate part, so capacity elements are touched only by the permutation.", "quantifier": "every sequence of absorb/squeeze calls", "why_tests_cant": "Arbitrary interleavings and lengths crossing the rate boundary.", "anchors": ["lib/crypto/src/poseidon2/mod.rs: absorb, squeeze, absorb_batch, squeeze_batch"]}
{"id": "C67", "title": "A rejected checked nonce is not consumed", "statement": "use_checked_nonce(owner, n) that fails with InvalidAccountNonce leaves nonces(owner) unchanged, so that a contract which handles the error and carries on (no revert) does not burn the nonce.", "quantifier": "every state, owner and wrong nonce", "why_tests_cant": "Only visible to a caller that catches the error instead of propagating it; no test does.", "anchors": ["contracts/src/utils/nonces.rs: use_checked_nonce"]}
{"id": "C68", "title": "ERC-1155 URIs follow the last settings", "statement": "After every history of set_token_uri and set_base_uri, uri(id) is the common metadata URI when the last suffix set for id is empty or none was set, otherwise the last base URI followed by the last suffix set for id; each URI event announces exactly the value uri(id) then has.", "quantifier": "every history and id", "why_tests_cant": "Histories of any length, ids and strings are unbounded.", "anchors": ["contracts/src/token/erc1155/extensions/uri_storage.rs", "contracts/src/token/erc1155/extensions/metadata_uri.rs"]}
{"id": "C69", "title": "Curve points form an abelian group", "statement": "For every field of characteristic other than two and all coefficients, the points that the curve operations compute with form an abelian group under the chord-and-tangent law: the identity is neutral, every point plus its negation is the identity, addition is commutative, and it is associative on all non-singular points (all points, when the discriminant is nonzero), which are closed under addition.", "quantifier": "every field, curve coefficients and triples of points, including all coincidences", "why_tests_cant": "Associativity with all its degenerate cases ranges over triples of points on every curve.", "anchors": ["lib/crypto/src/curve/sw/projective.rs: add_assign, double_in_place", "lib/crypto/src/curve/sw/affine.rs"]}
{"id": "C70", "title": "ERC-165 answers are exactly the published identifiers", "statement": "For every four-byte interface id, supports_interface of each token, extension and shipped example answers true exactly when the id is ERC-165's own id or the identifier published for (one of) the standard(s) it implements (ERC-20, its metadata, ERC-721, its metadata and enumeration, ERC-1155, its metadata URI, ERC-2981, ERC-4626, ERC-3156 lender, IAccessControl, and the library's own interfaces); 0xffffffff is never supported; and the magic values demanded from receivers are those of ERC-721 and ERC-1155.", "quantifier": "all 2^32 interface ids, all implementing contracts", "why_tests_cant": "tests query the expected id and one fake id; that nothing else is claimed is a statement about all ids. Two unit tests even assert that the computed id differs from the expected one.", "anchors": ["contracts-proc/src/interface_id.rs::interface_id", "contracts/src/utils/introspection/erc165.rs::Erc165", "contracts/src/access/control.rs::IAccessControl", "contracts/src/token/erc721/mod.rs::RECEIVER_FN_SELECTOR"]}
{"id": "C71", "title": "Vault share price survives re-entrant asset hooks", "statement": "For a vault over an asset with ERC-777 style hooks, through which the sender (before tokens move) or the receiver (after tokens moved) may re-enter the vault, the asset and anything else to any depth: in any history of calls the worth of a share, (total assets + 1) / (total supply + 10^offset), never falls, what any number of shares is worth never falls, and all holders' claims stay covered. The order of operations in deposit and withdraw is what makes this true: with the hook after the incoming transfer or before the outgoing one it fails.", "quantifier": "all trees of nested calls, all amounts, all offsets", "why_tests_cant": "re-entrancy at every nesting depth and in every interleaving cannot be enumerated", "anchors": ["contracts/src/token/erc20/extensions/erc4626.rs::_deposit", "contracts/src/token/erc20/extensions/erc4626.rs::_withdraw"]}
{"id": "C72", "title": "Every set of leaves of a complete tree has a multi proof", "statement": "For every complete binary Merkle tree (array layout, commutative pair hash), every set of its leaves listed from the last to the first verifies against the root with the multi proof and flags obtained by climbing the tree: the ordering recommended by the documentation always suffices, and such trees exist for every number of leaves.", "quantifier": "all numbers of leaves, all leaf values, all subsets, all hash functions", "why_tests_cant": "subsets and tree sizes are unbounded; tests use a handful of fixed proofs", "anchors": ["lib/crypto/src/merkle.rs::verify_multi_proof_with_builder"]}
{"id": "C73", "title": "The pausable ERC-1155 example freezes tokens", "statement": "In the shipped ERC-1155 example, while the contract is paused every mint, burn and transfer, single or batch, is refused with EnforcedPause and changes nothing; no history of calls without unpause changes any balance or ends the pause; when not paused (and always for approvals) each call has exactly the outcome of the plain contract; and the token state is always one the plain contract can reach.", "quantifier": "all states, callers, calls and histories", "why_tests_cant": "one forgotten guard would show only for the one call no test makes while paused", "anchors": ["examples/erc1155/src/lib.rs", "contracts/src/utils/pausable.rs"]}
{"id": "C74", "title": "The access-control example: who can do what", "statement": "In the shipped access-control example transfer_from is the token's for holders of TRANSFER_ROLE (the Keccak-256 hash of its name) and is refused with UnauthorizedAccount for everybody else; make_admin succeeds exactly for callers that hold the default admin role and the current admin role of TRANSFER_ROLE, and grants that role only; accounts that hold no role cannot change any membership; and a role is only ever gained from an account that held its admin role.", "quantifier": "all states, callers, role graphs and histories", "why_tests_cant": "quantifies over all role graphs and sequences of callers", "anchors": ["examples/access-control/src/lib.rs", "contracts/src/access/control.rs"]}
{"id": "C75", "title": "In the ERC-1155 supply example only a holder or operator can remove tokens", "statement": "In the shipped erc1155-supply example the tokens of an account leave it only in calls by the account itself or by an operator it approved.", "quantifier": "all reachable states, callers and calls", "why_tests_cant": "absence of an unauthorised path through any public function", "anchors": ["examples/erc1155-supply/src/lib.rs", "contracts/src/token/erc1155/extensions/supply.rs::_burn"]}
{"id": "C76", "title": "Calls reach the function they are meant for", "statement": "Each shipped example contract answers exactly the Solidity signatures expected of it (for the standards: at the published selectors), each with the function meant, its own where it overrides an inherited one; no two of them share a selector; so the guarded transfers of the pausable examples cannot be reached unguarded, and a token sent to the ERC-721 wrapper with safeTransferFrom reaches its hook.", "quantifier": "all 20 examples, all 2^32 selectors, all token states and transfers for the consequence", "why_tests_cant": "The unit tests call Rust methods and bypass dispatch; end-to-end tests call the selectors they know and cannot show that no other selector reaches an unguarded inherited function. No test sends a token to the wrapper example.", "anchors": ["examples/*/src/lib.rs", "contracts/src/token/erc721/mod.rs:290-420", "contracts/src/token/erc1155/mod.rs:330-420", "contracts/src/token/erc20/mod.rs:270-360", "examples/erc721-wrapper/src/lib.rs:22-61"]}
{"id": "C77", "title": "Raw logs determine the ledgers", "statement": "Every event leaves a raw log (topics and data) that a reader knowing only the published ABI of the standards decodes to exactly that event, never to another kind. So an indexer that sees nothing but raw logs computes every ERC-20 balance and the supply, every ERC-721 owner, approval and operator, every ERC-1155 balance and operator, and every role membership and admin exactly as the contract's getters report them.", "quantifier": "all events with 256-bit arguments (batches up to 2^64 entries); all histories of calls by all callers, with receivers that call back", "why_tests_cant": "Unit tests capture no logs at all; end-to-end tests compare a few emitted events decoded with the very ABI generated from the contract, and cannot cover histories, batch encodings of all lengths, or confusions between event kinds (ERC-20 and ERC-721 share topic 0).", "anchors": ["contracts/src/token/erc20/mod.rs:36-45", "contracts/src/token/erc721/mod.rs:36-75", "contracts/src/token/erc1155/mod.rs:44-96", "contracts/src/access/control.rs:68-90", "contracts/src/token/erc721/extensions/consecutive.rs:54-75", "contracts/src/token/erc20/extensions/erc4626.rs:30-70"]}
{"id": "C78", "title": "Revert data says why a call failed", "statement": "Whenever a call fails with an error, the returned data is the standard encoding (ERC-6093 and OpenZeppelin selectors) of that error with its arguments, from which a reader knowing only the published selectors recovers it; different errors are never confused. Errors of wrapped components keep their own encoding. The reason read is one the token itself gave.", "quantifier": "all errors of the library; for ERC-20, ERC-721, ERC-1155 and access control all failing calls on all reachable states with all 256-bit arguments", "why_tests_cant": "Unit tests match on Rust enum variants and never look at the bytes; end-to-end tests check some selectors with bindings generated from the same source.", "anchors": ["contracts/src/token/erc20/mod.rs:47-121", "contracts/src/token/erc721/mod.rs:80-182", "contracts/src/token/erc721/mod.rs:993-1035", "contracts/src/token/erc1155/mod.rs:100-180", "contracts/src/token/erc20/utils/safe_erc20.rs:36-70", "contracts/src/access/control.rs:92-113"]}
{"id": "C79", "title": "Shares and wrapped tokens survive a hostile asset", "statement": "Whatever contract the asset of an ERC-4626 vault or ERC-20 wrapper is - one that lies, takes fees, rebases or calls back into the vault from every call it receives - the shares remain a sound ERC-20 token: supply is the sum of holdings, and an account that makes no call itself loses no more shares than the allowances it had given are used up for. Each of deposit, mint, withdraw and redeem asks the asset exactly once to move exactly the assets computed from the balance reported at the start, rounded in the vault's favour, and mints or burns exactly the shares it logs.", "quantifier": "all asset contracts (arbitrary answers, arbitrary nested calls by anybody, behaviour changing from call to call), all histories, all 256-bit amounts, all offsets", "why_tests_cant": "Tests use one honest mock asset; hostile behaviours form an infinite tree of nested calls.", "anchors": ["contracts/src/token/erc20/extensions/erc4626.rs", "contracts/src/token/erc20/extensions/wrapper.rs", "contracts/src/token/erc20/utils/safe_erc20.rs"]}
{"id": "C80", "title": "The deployed consecutive collection", "statement": "The erc721-consecutive example can be deployed exactly when its constructor arguments can be served: at least as many amounts as receivers, no nonempty batch to the zero address or above the maximum, no batch reaching the end of the 96-bit id space. From deployment on, whatever anybody calls, every id belongs to whom the constructor's lists and the successful calls give it, balances count the owned ids, and an indexer that applies the ConsecutiveTransfer logs and then the Transfer logs knows all owners. Tokens change hands or disappear only with the consent of their owner.", "quantifier": "all constructor arguments of the declared types, all histories of calls by anybody, all ids", "why_tests_cant": "The Solidity constructor writes storage that the Rust code reads through a binary search and a bitmap; tests deploy one fixed list of batches.", "anchors": ["examples/erc721-consecutive/src/constructor.sol", "examples/erc721-consecutive/src/lib.rs", "contracts/src/token/erc721/extensions/consecutive.rs", "contracts/src/utils/structs/checkpoints/mod.rs"]}
{"id": "C81", "title": "Poseidon2 over the integers", "statement": "Every shipped Poseidon2 hash, used in any order of calls that absorbs nothing after a squeeze, returns the elements that Poseidon2 in plain arithmetic modulo the field's prime gives, with the constants as written in the repository and inputs and outputs read as integers; that executable reference gives the vectors of the repository's tests. The Poseidon example's hash(uint256[2]) never reverts, returns the hash of its inputs modulo the prime as an integer below the prime, and depends on each input modulo the prime only.", "quantifier": "all eight parameter sets, all call sequences, all field elements, all pairs of 256-bit inputs", "why_tests_cant": "Tests compare one vector per parameter set; Montgomery arithmetic, addition chains for the matrices and the sponge bookkeeping must be right for all inputs.", "anchors": ["lib/crypto/src/poseidon2/mod.rs", "lib/crypto/src/poseidon2/instance/", "lib/crypto/src/field/fp.rs", "examples/poseidon/src/lib.rs"]}
{"id": "C82", "title": "Storage layout: fields never overlap, and constructors written in Solidity fill the right ones", "statement": "A contract's fields, map entries, array elements and string data are laid out exactly as Solidity's documented rules say, for every nesting of #[storage] structs; two different places share no byte unless the Keccak hashes on the way to them nearly collide, so storage behaves as a map from places to values under any sequence of writes. Every state variable that an example's constructor.sol reads or writes is, by Solidity's rules, in the bytes where the Rust contract keeps the field that is meant, and of its type. (That all declared variables are the Rust fields is false for three examples.)", "quantifier": "all contracts built from the storage types, all places, all sequences of writes, any hash function; all examples of the repository with all keys and indices", "why_tests_cant": "Tests deploy a few contracts and touch a few keys; a constructor that writes one field too far, or two packed fields that overlap, shows only for particular values, and the claim is about all of them.", "anchors": ["contracts/src/token/erc20/mod.rs:130-139", "contracts/src/token/erc721/extensions/consecutive.rs:132-147", "contracts/src/finance/vesting_wallet.rs:109-125", "examples/vesting-wallet/src/constructor.sol", "examples/erc721-consecutive/src/constructor.sol", "examples/erc1155/src/constructor.sol"]}
{"id": "C83", "title": "Holders of a permit token lose only what they approved, by call or by signature", "statement": "Over any history of transfers, approvals, burns, mints and permits by anybody: each nonce of an owner that was used up belongs to exactly one message presented in time with a signature that recovers to the owner; what a spender took from the owner plus what it may still take is at most its initial allowance plus the owner's approve calls plus those messages, each counted once; an owner that makes no calls loses at most the allowances given before and the values it signed, and nothing if there are none. If the owner signed only a given list of typed-data requests, of any domains and types, each message used is in that list for this very domain, unless two of the strings hashed for them collide.", "quantifier": "every history, state, hash function, precompile behaviour, owner, spender, list of signed requests", "why_tests_cant": "Tests present a handful of signatures; the claim bounds what all callers together can extract through every interleaving of permits, replays, approvals and transfers.", "anchors": ["contracts/src/token/erc20/extensions/permit.rs:138-174", "contracts/src/utils/nonces.rs:60-80", "examples/erc20-permit/src/lib.rs:37-67"]}
{"id": "C84", "title": "A call that fails several checks reports the first of them", "statement": "For ERC-20, ERC-721, ERC-1155, AccessControl, the erc20 example, the ERC-20 wrapper and the vault, the outcome of every call is that of the first failing check of an ordered list written down from the documentation: the error and its fields, a panic on overflow, or success when no check fails. For batches the checks run entry by entry on the balances left by the entries before; the receiver's answer comes last.", "quantifier": "every state (reachable states for wrapper and vault), every caller other than zero, all arguments, all receivers", "why_tests_cant": "Tests make calls that are wrong in one way; the order of checks shows only when several fail at once, and the combinations are many.", "anchors": ["contracts/src/token/erc20/mod.rs:282-575", "contracts/src/token/erc721/mod.rs:412-1035", "contracts/src/token/erc1155/mod.rs:368-1130", "contracts/src/access/control.rs:258-405", "contracts/src/token/erc20/extensions/wrapper.rs:241-332", "contracts/src/token/erc20/extensions/erc4626.rs:897-1212", "examples/erc20/src/lib.rs:50-123"]}
{"id": "C85", "title": "Bytes in, bytes out: the erc20 example is the ideal token for everybody who calls it", "statement": "A contract is a function from sender, value and calldata to return or revert data. The argument decoder accepts exactly the ABI encodings of values of the parameter types. For examples/erc20, after any history of calls with arbitrary bytes and values by anybody: the getters show a ledger, and for every request the answer (returned bytes, or revert data that the published ABI decodes to the predicted error, or an empty revert on overflow) and the ledger shown afterwards are those of an ideal token that computes with integers; a call that is not the encoding of a public function without value fails with empty data and no effect; only the eight requests change anything; the supply shown never exceeds the cap shown. The bytes that SafeErc20, wrapper and vault send to a token of the library are answered as their models assume.", "quantifier": "all histories of (sender, value, bytes), all callers, all requests, all ledgers consistent with the getters", "why_tests_cant": "Unit tests call Rust methods with typed values, below dispatch and codec; end-to-end tests send a few well-formed calls. Neither covers arbitrary bytes, nor every history.", "anchors": ["examples/erc20/src/lib.rs:19-124", "contracts/src/token/erc20/mod.rs:271-316", "contracts/src/token/erc20/extensions/capped.rs:14-67", "contracts/src/token/erc20/extensions/metadata.rs:62-74", "contracts/src/token/erc20/interface.rs:11-21", "contracts/src/token/erc20/utils/safe_erc20.rs:81-89", "contracts/src/utils/pausable.rs:60-140"]}
{"id": "C86", "title": "Wallets and contracts agree on what is signed", "statement": "A wallet that asks a contract for eip712Domain() (ERC-5267) and follows EIP-712 computes exactly the contract's domain separator, and, for a message of any type, the digest the contract checks. A permit goes through exactly if it is in time, the nonce is not exhausted, the spender is not zero, v is neither 0 nor 1 and the signature recovers to the owner for the EIP-2612 message with the owner's nonce under the reported domain. Two requests that differ in the domain, in which fields it has, in the message's type, in a member's type or name or in a value have different digests unless two of the strings hashed for them collide; so no signature for another request passes as a permit. The two type hashes are the published ones.", "quantifier": "every hash function, domain, message type, message, state, signature; every pair of requests", "why_tests_cant": "The tests compare one digest with a constant and never run a wallet's algorithm over the reported fields; that no other request shares a digest is a claim about all pairs.", "anchors": ["contracts/src/utils/cryptography/eip712.rs:20-135", "contracts/src/token/erc20/extensions/permit.rs:29-32", "contracts/src/token/erc20/extensions/permit.rs:138-174"]}
{"id": "C87", "title": "Bytes in, bytes out: the erc721 example is the ideal register, with receivers that answer anything", "statement": "For examples/erc721 behind its entry point, after any history of calls with arbitrary bytes and values by anybody, among contracts that answer the receiver hook with arbitrary bytes (and other bytes each time): the getters (ownerOf, getApproved, balanceOf, isApprovedForAll, totalSupply, tokenByIndex, paused) show a register of tokens, and for every request the answer and the register shown afterwards are those of an ideal register. A receiver with code is asked with the calldata of ERC-721's onERC721Received; only the 32 bytes of its selector count as consent; its own revert data is passed on unchanged, anything else becomes ERC721InvalidReceiver(to). Every other refusal decodes, by the published ABI, to the reason of the first failing condition. A call that is not the encoding of a public function without value fails with empty data and no effect; only the ten requests change anything. Without self transfers tokenOfOwnerByIndex lists exactly the owner's tokens (number 0 is answered as out of bounds).", "quantifier": "all histories of (world, sender, value, bytes) shorter than 2^256, all worlds, callers, requests and registers consistent with the getters", "why_tests_cant": "Unit tests call typed Rust methods, the end-to-end tests one honest and a few broken receivers; neither covers arbitrary bytes from callers and receivers or every history.", "anchors": ["examples/erc721/src/lib.rs:19-198", "contracts/src/token/erc721/mod.rs:409-491", "contracts/src/token/erc721/mod.rs:993-1040", "contracts/src/token/erc721/receiver.rs:9-40", "contracts/src/token/erc721/extensions/enumerable.rs:138-165", "contracts/src/utils/pausable.rs:60-140"]}
{"id": "C88", "title": "Bytes in, bytes out: the erc20-permit and ecdsa examples on a chain", "statement": "For examples/erc20-permit behind its entry point, after any history of calls with arbitrary bytes, values and block times by anybody: the getters (totalSupply, balanceOf, allowance, nonces) show a ledger, and for every request (transfer, approve, transferFrom, mint, permit) the answer and the ledger shown afterwards are those of an ideal token. A permit counts iff it is in time, s is in the lower half of the curve order, v is neither 0 nor 1, and the ecrecover precompile names the owner for the digest a wallet computes from the published domain, the message and the owner's nonce; it then sets the allowance and moves the nonce by one, and nothing else. Every refusal decodes to the reason of the first failing condition. DOMAIN_SEPARATOR() answers the wallet's hash of the domain. A call that is not the encoding of a public function without value fails with empty data and no effect; only the five requests change anything. An account that approved nobody, calls nothing and whose signature is never presented in time keeps its tokens and its nonce. examples/ecdsa answers the signer or the reason likewise. With the precompile as the EVM specifies it, a signature from which no signer follows, with low s and v other than 0 and 1, is not reported as ECDSAInvalidSignature: the call fails with empty revert data.", "quantifier": "all hash functions and precompiles answering bytes, all chains, addresses, histories of (time, sender, value, bytes), callers, requests and ledgers consistent with the getters", "why_tests_cant": "Unit tests call typed Rust methods with a handful of signatures; the end-to-end tests send a few transactions. Neither covers arbitrary bytes, arbitrary histories and every answer of the precompile.", "anchors": ["examples/erc20-permit/src/lib.rs:16-70", "examples/ecdsa/src/lib.rs:10-25", "contracts/src/token/erc20/extensions/permit.rs:89-174", "contracts/src/utils/cryptography/ecdsa.rs:94-205", "contracts/src/utils/cryptography/eip712.rs:60-140", "contracts/src/utils/nonces.rs:50-110"]}
{"id": "C89", "title": "Bytes in, bytes out: the erc4626 example and its asset on a chain", "statement": "For examples/erc4626 behind its entry point, over a token written with the library at another address, with the vault's calls to the token sent as bytes and its answers decoded from bytes: after any history of calls with arbitrary bytes and values to either contract by anybody, the getters of both show a pair of ledgers. For every request (deposit, mint, withdraw, redeem, the share token's and the asset's own functions) the answer and the ledgers shown afterwards are those of an ideal vault that prices with exact fractions, rounded down or up against the caller, and a refusal decodes to the reason of the first failing condition (SafeErc20FailedOperation when the asset refuses; empty data when a number does not fit a word). Every view (totalAssets, convertTo*, preview*, max*) answers the ideal number. A call that is not the encoding of a public function without value fails with empty data and no effect; only the requests change anything. As long as nobody calls in the vault's own name, the price of a share never falls between any two moments, and a holder who approved nobody and makes no calls keeps their shares and what these are worth. Whoever has shares can redeem them for exactly their worth, as long as the totals fit a word.", "quantifier": "all names, symbols, distinct addresses, decimals offsets, asset decimals, histories of (target, sender, value, bytes), callers, requests, questions and ledgers consistent with the getters", "why_tests_cant": "The unit tests call typed Rust methods over a mocked asset; the end-to-end tests send a few well-formed transactions. Neither covers arbitrary bytes to both contracts in arbitrary interleavings.", "anchors": ["examples/erc4626/src/lib.rs:1-115", "contracts/src/token/erc20/extensions/erc4626.rs:1-1342", "contracts/src/token/erc20/utils/safe_erc20.rs:1-420", "contracts/src/token/erc20/mod.rs:1-600"]}
{"id": "C90", "title": "Bytes in, bytes out: the erc20-wrapper example and its underlying token on a chain", "statement": "For examples/erc20-wrapper behind its entry point, over a token written with the library at another address, with its calls to the token sent and answered as bytes: after any history of calls with arbitrary bytes and values to either contract by anybody, the getters of both show a pair of ledgers, and every request (depositFor, withdrawTo, the functions of either token) is answered and changes the ledgers as an ideal wrapper would, a refusal decoding to the reason of the first failing condition. Any other call of the wrapper fails with empty data and no effect; only requests change anything. As long as nobody calls in the wrapper's own name, the wrapped supply never exceeds what the wrapper holds, the surplus never falls, a holder who approved nobody and makes no calls loses nothing, and every holder can take out any part of their balance in underlying tokens.", "quantifier": "all distinct addresses, decimals, histories of (target, sender, value, bytes), callers, requests and ledgers consistent with the getters", "why_tests_cant": "The unit tests call typed Rust methods over a mocked token; the end-to-end tests send a few well-formed transactions. Neither covers arbitrary bytes to both contracts in arbitrary interleavings.", "anchors": ["examples/erc20-wrapper/src/lib.rs:1-60", "contracts/src/token/erc20/extensions/wrapper.rs:1-340", "contracts/src/token/erc20/utils/safe_erc20.rs:1-420"]}
{"id": "C91", "title": "Bytes in, bytes out: the merkle-proofs example decides membership of hashed lists", "statement": "For examples/merkle-proofs behind its entry point, with the real Keccak-256: verify answers 1 exactly if hashing the leaf with the proof's words in turn, the smaller first, gives the root, else 0; verifyMultiProof answers as a queue of nodes rebuilt under the flags does, or fails with exactly one of its four errors, whose selectors differ, according to the lengths and flags. Any other bytes, or any value sent, fail with empty data. For a tree of any shape over the hashes of a list of strings none of which is 64 bytes long: everything on the list has a proof that is accepted; and if the hash of such a string is accepted, alone or as part of a multi proof, then the string is on the list, or two different strings among the list, the candidates, the pairs hashed by the verifier and the pairs hashed for the tree have the same Keccak-256 hash. Without the condition on lengths, an accepted leaf is the root of a part of the tree at that depth with just these siblings, or there is such a collision, or a pair hashed by the verifier gives a leaf.", "quantifier": "all trees, lists, leaves, proofs, flags, roots, callers, values and byte strings shorter than 2^256", "why_tests_cant": "Tests check a few proofs against trees built by another library; they cannot show that no other proof is accepted, and do not cover arbitrary calldata.", "anchors": ["examples/merkle-proofs/src/lib.rs:1-78", "lib/crypto/src/merkle.rs:150-346", "lib/crypto/src/hash.rs:129-154", "lib/crypto/src/keccak.rs:1-60"]}
{"id": "C92", "title": "Bytes in, bytes out: the erc1155 example is the ideal collection its users read about", "statement": "For examples/erc1155 behind its entry point, with receivers called by bytes: after any history of calls by anybody, with any bytes and any value sent, among any receivers, the getters balanceOf, isApprovedForAll and paused show a book of balances, operators and the pause, and the answer to every well-formed request (mint, mintBatch, burn, burnBatch, safeTransferFrom, safeBatchTransferFrom, setApprovalForAll, pause, unpause) and the book shown afterwards are those of an ideal book: checks in the standard's order with the exact reason, entries settled one after the other, the receiver asked with the calldata ERC-1155 prescribes (the single hook for a list of one, the batch hook otherwise), refused with InvalidReceiver unless it returns exactly the selector it was called by, its own revert data passed on verbatim, and failure with empty data if a balance would pass 2^256. balanceOfBatch answers the list of the balances in order or InvalidArrayLength. A granted request takes and gives exactly the sums in the lists, nobody else's balance and no approval changes. Any other bytes, or any value sent, fail with empty data and without effect. A holder without operators who sends nothing never loses anything; a pause freezes all balances until unpause() is called.", "quantifier": "all histories of raw calls (any caller but zero, value and bytes shorter than 2^256), all worlds of receivers, one for each call, all requests", "why_tests_cant": "Tests call single functions with chosen arguments through generated bindings; they do not cover arbitrary calldata, arbitrary receivers, repeated ids in batches or arbitrary histories.", "anchors": ["examples/erc1155/src/lib.rs:13-118", "contracts/src/token/erc1155/mod.rs:360-1049", "contracts/src/token/erc1155/receiver.rs:9-71", "contracts/src/token/erc1155/extensions/burnable.rs:60-110", "contracts/src/utils/pausable.rs:74-160"]}
{"id": "C93", "title": "Bytes in, bytes out: the vesting-wallet example is the ideal wallet its users read about", "statement": "For examples/vesting-wallet behind its entry point and #[receive], on a chain with native money, a clock and an ERC-20 token called by bytes: after any history of calls by anybody, with any bytes and any money sent, any payees and any passing of time, the getters owner, released, the token's getters, the balances and the clock show a purse, and every wish (release, release(token), transferOwnership, renounceOwnership, sending money to the wallet, token calls, payments among others) has the answer and the effect of an ideal wallet: the exact reason on refusal, the owner's own revert data if the owner does not take the money, empty data if the product of the schedule exceeds a word. releasable, vestedAmount, start, duration and end answer from the purse. A granted release by anyone pays the owner exactly what has vested and was not yet paid and changes nobody else's money; after the end it empties the wallet. Never has more been paid than has vested, nor more vested than came in; what came in is exactly the sum of the granted payments into the wallet; paid, received and clock never fall. With less than 2^192 received a release succeeds if and only if the owner, who is neither wallet nor token, takes the money. Any other bytes, or money with data, fail with empty data and without effect.", "quantifier": "all starts and durations of 64 bits, all first owners, distributions of money (total below 2^256, none with the wallet) and times, all histories of raw calls by others than the wallet itself, all payees, one world of them for each call, all wishes and questions", "why_tests_cant": "Tests call single functions with chosen amounts and times through generated bindings; they do not cover arbitrary calldata, hostile payees, every moment of the schedule or arbitrary histories.", "anchors": ["examples/vesting-wallet/src/lib.rs:1-21", "contracts/src/finance/vesting_wallet.rs:55-515", "contracts/src/token/erc20/utils/safe_erc20.rs:180-400", "contracts/src/access/ownable.rs:60-170"]}
{"id": "C94", "title": "Bytes in, bytes out: the access-control example is an ideal roster over an ideal ledger", "statement": "For examples/access-control behind its entry point, deployed over any ledger the library's token can have: after any history of calls by anybody with any bytes, hasRole, getRoleAdmin, totalSupply, balanceOf and allowance show a roster, and every request (grantRole, revokeRole, renounceRole, setRoleAdmin, makeAdmin, transfer, approve, transferFrom) is answered and takes effect as the ideal roster says, with its exact reason on refusal; transferFrom needs the transfer role, makeAdmin the root role and the administrating role of the transfer role, setRoleAdmin nothing. onlyRole tells the caller whether they hold a role and changes nothing. Other bytes or a value fail with empty data and no effect. An account without roles gets none unless a call gives it one; when nobody holds a role nobody ever will. Because setRoleAdmin is open, whoever holds any role takes any other with two calls, and anybody freezes any role with one.", "quantifier": "all deployers, prior ledgers, histories of raw calls from all addresses, all requests, roles and accounts", "why_tests_cant": "The example's tests call single functions through generated bindings from a few accounts; they do not cover arbitrary calldata, arbitrary histories or all roles.", "anchors": ["examples/access-control/src/lib.rs:1-56", "contracts/src/access/control.rs:255-410", "contracts/src/token/erc20/mod.rs:271-316"]}
{"id": "C95", "title": "Bytes in, bytes out: the ownable and ownable-two-step examples", "statement": "For examples/ownable and examples/ownable-two-step behind their entry points, deployed over any ledger the library's token can have: after any history of calls by anybody with any bytes, owner, pendingOwner and the token's getters show a book, and every request (transferOwnership, acceptOwnership, renounceOwnership, transfer, approve, transferFrom) is answered and takes effect as the ideal book says, with its exact reason on refusal; only the owner may transfer. Other bytes or a value fail with empty data and no effect. Ownership stays with who has it as long as they do not call and, in two steps, who they nominated does not accept; in two steps nobody becomes owner without accepting, in one step they may. A transfer that succeeds returns no data where ERC-20 returns a flag. The guard on transfer restrains no holder: with an approval of oneself and transferFrom any holder moves any part of their tokens anywhere.", "quantifier": "all first owners, prior ledgers, histories of raw calls from all addresses, all requests, holders, receivers and amounts", "why_tests_cant": "The examples' tests call single functions through generated bindings from a few accounts; they do not look at return data, combine approve and transferFrom against the guard, or cover arbitrary histories.", "anchors": ["examples/ownable/src/lib.rs:1-36", "examples/ownable-two-step/src/lib.rs:1-36", "contracts/src/access/ownable.rs:128-197", "contracts/src/access/ownable_two_step.rs:52-225", "contracts/src/token/erc20/mod.rs:271-316"]}
{"id": "C96", "title": "Flash loans and accessors that remember: what a re-entrant borrower does to the supply", "statement": "The SDK's StorageU256 answers from memory after its first access, and flash_loan keeps the accessor of total_supply alive across the borrower's callback. With that behaviour: for any borrower and any state a loan is answered as without it and leaves the same balances, allowances and logs, but the supply it leaves is the supply before the callback plus the loan minus what was burned, modulo 2^256, whatever the callback did to the supply. If no callback makes or destroys tokens (nested loans only when the fee is not destroyed), the accessors make no difference to any execution. With public functions of the library only, sums of balances never exceed the supply, which never grows and fits a word. The supply is not always the sum of the balances: a loan nested in a loan with a destroyed fee leaves it too high; where anybody may mint, a borrower that mints in its callback leaves it too low, after which a burn wraps the supply and a mint wraps a balance.", "quantifier": "all borrowers (trees of calls), states, amounts, fees and fee receivers", "why_tests_cant": "The unit tests run without re-entrancy and the end-to-end borrower does not change the supply in its callback; no test compares the supply with the balances afterwards.", "anchors": ["contracts/src/token/erc20/extensions/flash_mint.rs:136-139", "contracts/src/token/erc20/extensions/flash_mint.rs:308-364", "contracts/src/token/erc20/mod.rs:131-139", "contracts/src/token/erc20/mod.rs:458-502", "examples/erc20-flash-mint/src/lib.rs:31-59"]}
{"id": "C97", "title": "The flash-mint example by bytes, with borrowers that call back", "statement": "A token deployed from examples/erc20-flash-mint with any fee and fee receiver, called with any bytes by anybody, where the borrower of a loan and whoever it talks to may call back with any bytes, nested to any depth, and answer anything: after any such visits the getters (totalSupply, balanceOf, allowance, maxFlashLoan) describe one ledger of words. transfer, approve, transferFrom and mint are answered as the ledger says, or refused with the first reason that applies, and the getters then describe the ledger after the order, modulo 2^256. flashLoan is refused with the first of ERC3156ExceededMaxLoan, ERC3156UnsupportedToken, ERC3156InvalidReceiver, or the reason of a mint; otherwise the borrower is sent onFlashLoan(address,address,uint256,uint256,bytes) with the initiator, token, amount, fee and data to the letter, in the state that a mint of the amount leads to; then, on the ledger the borrower left but with the supply from before its turn, the loan is undone for the first reason that applies (wrong answer, overflow, allowance, balance, fee transfer), or settled: amount and fee burned, or the amount burned and the fee paid. flashFee answers for the token itself only. Everything else is refused without effect. The reported supply is not always the sum of the reported balances: from a new contract, a loan with a mint in the callback leaves a supply of 0 and a balance of 5, and a further mint then lowers that balance to 4.", "quantifier": "all deployments, all visits as bytes with all callbacks nested to any depth, all worlds", "why_tests_cant": "The end-to-end tests use one borrower with fixed behaviour and typed bindings; neither nested byte-level calls nor malformed calldata nor the state during the callback is explored.", "anchors": ["examples/erc20-flash-mint/src/lib.rs:1-59", "contracts/src/token/erc20/extensions/flash_mint.rs:37-39", "contracts/src/token/erc20/extensions/flash_mint.rs:72-139", "contracts/src/token/erc20/extensions/flash_mint.rs:285-364", "contracts/src/token/erc20/mod.rs:271-316"]}
{"id": "C98", "title": "The safe-erc20 example by bytes, with any token", "statement": "A contract deployed from examples/safe-erc20, in any world and told to use any address as the token: safeTransfer and safeTransferFrom send the token exactly transfer and transferFrom, and return nothing exactly if the address has code, the call succeeds and its answer is empty or its first word is the number one; otherwise they revert with SafeErc20FailedOperation of that address and nothing has changed. forceApprove approves directly, or if that is not granted, zero first and then again; safeIncreaseAllowance and safeDecreaseAllowance ask the token for the allowance the contract has given and approve the sum (a sum of 2^256 or more fails without data) or the difference (SafeErc20FailedDecreaseAllowance with the numbers if there is none). Who calls makes no difference. Every other calldata fails without data. On every token whose approvals work, also one that only changes allowances from or to zero, the allowance is afterwards exactly the number, the sum, the difference. Among tokens that are ledgers, only the named token's ledger changes, by the order of the contract, exactly if that ledger allows it.", "quantifier": "all worlds and tokens (any function of address, calldata and world), callers, calldata; all families of ledgers", "why_tests_cant": "tests use a few mock tokens; a token may do anything between the calls and answer anything", "anchors": ["examples/safe-erc20/src/lib.rs:7-16", "contracts/src/token/erc20/utils/safe_erc20.rs:233-398"]}
{"id": "C99", "title": "The erc1155-supply example by bytes", "statement": "A contract deployed from examples/erc1155-supply answers every call, given as raw bytes by anybody among any receivers, as an ideal collection does that has balances, operators, a supply per token and a total: mints and burns (by anybody, of anybody's tokens), transfers by holders and operators, approvals; refusals carry the Solidity error, the receiver's own words, or nothing if a number would pass 2^256. After every history the supply shown for a token is the sum of all balances shown for it, exists(id) says whether it is positive, and totalSupply() is the sum of all supplies modulo 2^256. Everything but well-formed calls of the fourteen public functions fails without data and without effect.", "quantifier": "all histories of calls (callers, values, calldata, worlds of receivers), all requests", "why_tests_cant": "batches with repeated ids, sums beyond 2^256, malformed calldata and hostile receivers in unbounded histories", "anchors": ["examples/erc1155-supply/src/lib.rs:17-83", "contracts/src/token/erc1155/extensions/supply.rs:77-372"]}
{"id": "C100", "title": "The erc721-metadata example by bytes; strings are text", "statement": "A contract deployed from examples/erc721-metadata answers every call, given as raw bytes by anybody among any receivers, as an ideal collection does in which every token links to an address: the base and what was set for the token, the base and the token's number in decimal, or what was set alone when there is no base. Anybody sets the address of any token, whether it exists or not; the address outlives the token, so that a token minted (again) later links to what a stranger set before. A string argument is accepted exactly if its bytes are the UTF-8 encoding of a sequence of Unicode scalar values; other bytes make the call fail without data and without effect. Everything but well-formed calls of the sixteen public functions fails without data and without effect.", "quantifier": "all histories of calls (callers, values, calldata, worlds of receivers), all requests, all labels, all byte strings", "why_tests_cant": "all byte strings as texts, malformed calldata, arbitrary orders of setting, minting and burning in unbounded histories", "anchors": ["examples/erc721-metadata/src/lib.rs:20-59", "contracts/src/token/erc721/extensions/uri_storage.rs:44-120", "contracts/src/token/erc721/extensions/metadata.rs:71-130"]}
{"id": "C101", "title": "The erc1155-metadata-uri example by bytes", "statement": "A contract deployed from examples/erc1155-metadata-uri answers every call, given as raw bytes by anybody among any receivers, as an ideal collection does in which a token links to the base followed by what was last set for it, and to the text chosen at deployment if nothing (or the empty text) was set. Anybody sets the link of any token and the base of all; a new base takes effect for all set links at once and for no other. As there is nothing to mint with, no account ever has any token and every transfer of a positive amount is refused, the account's own with ERC1155InsufficientBalance. Texts must be UTF-8. Everything but well-formed calls of the ten public functions fails without data and without effect.", "quantifier": "all histories of calls (callers, values, calldata, worlds of receivers), all requests, all texts chosen at deployment", "why_tests_cant": "all byte strings, arbitrary orders of settings and transfers in unbounded histories, arbitrary receivers", "anchors": ["examples/erc1155-metadata-uri/src/lib.rs:14-46", "contracts/src/token/erc1155/extensions/uri_storage.rs:20-93", "contracts/src/token/erc1155/mod.rs:360-420"]}
{"id": "C102", "title": "The erc721-consecutive example by bytes, from its constructor on", "statement": "A contract of examples/erc721-consecutive deploys exactly if its constructor's arguments can be served. Once deployed it answers every call, given as raw bytes by anybody among any receivers, as an ideal register does that starts with the batches handed out in order (the first recipient has the first numbers, the next the following ones, nobody any other) and follows the requests of the history: balances are the numbers of tokens held, owners, approvals and operators are those of the register, refusals carry the error the register gives as reason. Anybody mints a token nobody has, and anybody burns any token. Everything but well-formed calls of the twelve public functions fails without data and without effect.", "quantifier": "all constructor arguments, all histories of fewer than 2^255 calls (callers, values, calldata, worlds of receivers), all requests", "why_tests_cant": "all batch layouts in the 96-bit number space, all byte strings, arbitrary orders of mints, burns and transfers of batch tokens in unbounded histories", "anchors": ["examples/erc721-consecutive/src/lib.rs:16-41", "examples/erc721-consecutive/src/constructor.sol:34-127", "contracts/src/token/erc721/extensions/consecutive.rs:171-259", "contracts/src/token/erc721/extensions/consecutive.rs:270-775"]}
{"id": "C103", "title": "The basic token example by bytes", "statement": "After every history of calls to examples/basic/token, by anybody, with any bytes and any value, its getters show a ledger of balances, allowances and the supply, together with the name and symbol it was built with and 18 decimals. Every transfer, approve, transferFrom and mint then answers as the ideal token decides: either the ledger shown next is the one after the order, or the call reverts with the reason the ideal token gives and changes nothing. An account's balance shrinks only by its own transfer or by a transferFrom within an allowance it gave to the caller, by exactly what was asked for. Everything but well-formed calls of the ten public functions fails without data and without effect.", "quantifier": "all names and symbols, all histories of calls (callers, values, calldata), all further calls", "why_tests_cant": "all byte strings after unbounded histories; 256-bit amounts and allowances", "anchors": ["examples/basic/token/src/lib.rs:12-31", "examples/basic/token/src/constructor.sol:4-16", "contracts/src/token/erc20/mod.rs", "contracts/src/token/erc20/extensions/metadata.rs:62-74"]}
{"id": "C104", "title": "The poseidon example by bytes", "statement": "The deployed examples/poseidon answers calldata consisting of the selector of hash(uint256[2]) and two words with one word, the Poseidon2 digest of the two integers over the field of BN254, which is below the prime; it never fails on such calldata. Every other byte string, and every call with value, fails without data. Numbers that are not field elements are not refused: the answer is that for their remainders modulo the prime, although the bytes sent differ.", "quantifier": "all pairs of 256-bit words, all byte strings, all values", "why_tests_cant": "2^512 inputs; all malformed byte strings", "anchors": ["examples/poseidon/src/lib.rs:14-36", "lib/crypto/src/poseidon2/mod.rs", "lib/crypto/src/poseidon2/instance/bn256.rs"]}
{"id": "C105", "title": "The erc721-wrapper example by bytes", "statement": "Consider the deployed examples/erc721-wrapper after any history of transactions. depositFor(account, ids) answers true exactly if the ids are different, none of them has an owner in the wrapper, the account is not zero and takes each token, and the collection accepts each transferFrom from the caller to the wrapper; then account owns exactly these tokens in addition and no other token changes hands. withdrawTo(account, ids) answers true exactly if the ids are different, the caller is owner, operator or approved account for each, and the collection accepts each safeTransferFrom to the account; then none of them has an owner and no other token changes hands. Otherwise the state is unchanged; when the collection refuses, the answer is the data it gave, or Erc721FailedOperation with its address if it gave none. Transfers and approvals of wrapped tokens go through exactly for the owner's name and an entitled caller (safe transfers: if the receiver agrees), and have their effect. onErc721Received refuses every caller but the collection, naming it, and wraps the token for the account it came from; the standard onERC721Received, spelt differently, always fails without data, so a standard collection cannot safely transfer to the wrapper. The documented failure for an underlying address that is not a contract does not occur: the deposit succeeds with nothing behind it. All other byte strings, and calls with value, fail without data.", "quantifier": "all histories of transactions with arbitrary bytes, all behaviours of the collection and the receivers (different for every call), all batches, callers and byte strings", "why_tests_cant": "unbounded batches and histories, arbitrary foreign contracts; the repository's test with a non-contract collection is ignored", "anchors": ["examples/erc721-wrapper/src/lib.rs:14-62", "contracts/src/token/erc721/extensions/wrapper.rs:98-236", "contracts/src/token/erc721/mod.rs:409-491"]}
