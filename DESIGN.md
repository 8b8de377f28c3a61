# Design: a machine-checked model of rust-contracts-stylus

Everything here is Rocq/Coq 8.16.1 under `rocq/theories` (logical root `Verif`).
The Rust in `/repo` is read as text and never executed; the tie between code and
model is the line-by-line citation attached to every definition.

## Layout

* `theories/Base/*` – result type, state/error monad, 256-bit arithmetic, finite
  maps with default zero and their sums, list helpers.
* `theories/Model/*` – the executable model, one file per Rust module, one
  definition per Rust function, each with a comment citing file and lines.
* `theories/Spec/*` – small independent specifications (what a user would write
  down without having seen the code). Where the specification is a one-liner it is
  stated inline in the theorem instead.
* `theories/Proofs/*` – lemmas.
* `theories/Props/*` – only the property theorems (`Theorem … exact lemma`), their
  non-vacuity `Example`s, and `Print Assumptions`.

## How Rust is rendered

* `&mut self` methods are functions `state -> result * state`. The returned state is
  kept **also on error and panic**, because a Rust `Err` does not undo writes; the
  wrapper `tx` restores the old state when the outermost call fails, which is what
  the VM does. Library-level statements use the raw function, contract-level
  statements use `tx`.
* `Result<A,E>` is `Ok a | Err e`; a Rust panic (`expect`, `checked_*().expect`,
  index out of bounds, division by zero, `U256::from` out of range) is a third
  constructor `Panic`.
* `U256`, `U96`, `U160`, `u64`… are `Z` with explicit range predicates; every
  operation that wraps in Rust is written with an explicit `mod 2^n`, every checked
  operation with an explicit test.
* Storage maps are std++ `gmap` with default 0; absent key = never written = 0.
* Addresses are `Z` (0 = `Address::ZERO`).
* `evm::log` appends to a list of events in the state.
* `msg::sender()`, `contract::address()`, `block::timestamp()`, chain id are explicit
  parameters.
* External calls: the callee is an arbitrary function (universally quantified in the
  theorem) or, where the property is about a pair of contracts, a second instance of
  our own model of the callee. Re-entrancy is modelled by call trees.
* `keccak256`, `ecrecover`, the Merkle `Hasher`, EIP-712 hashing are universally
  quantified functions: theorems hold for every such function. Where collision
  freedom matters the theorem *returns the collision* instead of assuming its absence.
  `Base/Keccak.v` is an executable Keccak-256 (checked against published vectors); it is
  used for test vectors of the repository and for the selectors of C70 only.
* Code of `lib/crypto` that can panic returns `option`, `None` being the panic. Loops
  whose bound is not syntactic carry fuel, and the theorems say that enough fuel
  always exists (C29, C61) or how much.

## Trusted base

* Coq's kernel (and `coqchk`), the statements of the theorems in `Props/`, and the
  definitions they mention (`Model/`, `Spec/`, `Base/`).
* `Print Assumptions` is printed below every property theorem in `Props/`; the answer is
  "Closed under the global context" for every one of them: **no axioms**, neither own nor
  of any library. std++ supplies finite maps (`gmap`) and list lemmas, all proved.
* The reading of the Rust code, and of these dependencies' semantics:
  alloy/ruint (`+`,`-`,`*` on `Uint` wrap, `/` panics on 0, `Sum` wraps, `U256::from(U512)`
  panics when out of range), stylus-sdk storage (unset slots read 0, `StorageVec`
  bounds checks), and the VM (failed transaction = state restored). The SDK refuses
  re-entrant calls unless the `reentrant` feature is on (among the examples, only
  erc20-flash-mint); the release profile of the workspace has no overflow checks.

## What is modelled

Every function body of `contracts/src` and `lib/crypto/src` outside tests, except the items
of the next section. Simplifications, also stated in the comments of the definitions:

* **Checkpoints, BitMap**: keys and values as `Z`, all three sizes at once; the storage
  vector's length is assumed to fit `usize` (fewer than 2^64 pushes).
* **FlashMint**: a borrower is a finite tree of calls (by it or anybody it talks to) with a
  return value or revert per callback; nested loans included.
* **SafeErc20**: the token is an arbitrary function from call and world to revert or bytes.
* **Erc20World / Wrapper / Erc4626**: the asset is the library's own ERC-20 (second
  instance of the model), driven by arbitrary third parties between and inside calls;
  no fee-on-transfer or rebasing assets in C10-C16.
* **Vesting**: the payee is an arbitrary program (releases, transfers, ownership calls,
  token calls), the token is honest and does not call back, except in C21 where it is
  arbitrary.
* **Erc721, Erc1155**: receivers are arbitrary functions of their arguments and the
  contract's storage, which they may change by calling back (call trees). Balance
  counters are exact unless one account owns all 2^256 ids.
* **Consecutive**: the safe variants end with the receiver callback of Erc721 and are not
  repeated; ConsecutiveTransfer events are kept in a list of their own.
* **ConsecutiveExample**: the Solidity constructor, function by function with checked `uint96`
  arithmetic, writing the storage the Rust model reads (that both lay it out alike is C82),
  and the five state-changing public functions without receiver callbacks.
* **Enumerable**: conversion of vector lengths to `usize` not modelled; hooks as composed
  by examples/erc721, whose build has no `reentrant` feature.
* **Wrapper721**: wrapper plus collection plus arbitrary re-entering receivers; callers are
  not the zero address nor one of the two contracts; `_recover` is exposed to everybody
  (least favourable choice).
* **Uri**: strings are byte lists. **Erc1155 / Supply**: the functions Supply repeats from
  the base contract are modelled once, over a record `sys` instantiated twice.
* **Merkle**: a hasher is a function from the list of update strings to its output; byte
  arrays are byte lists; overflow of `usize` lengths not modelled.
* **Uint**: little-endian limb lists for every N; `char::to_digit` for ASCII.
* **Fp**: elements are Montgomery limb lists for every odd modulus; `from_unsigned` through
  `from_u128` for all primitive widths. **FieldInstances, PoseidonInstances**: the decimal
  and hexadecimal literals of the repository as text, parsed by the modelled parser
  (`PoseidonInstances.v` is generated from the repository text).
* **Curve, Poseidon**: over a record of field operations; `Proofs` show that the model of
  `Fp` over a prime is an instance. Curve configurations with cofactor one skip the
  subgroup check, as the default method of the trait does.
* **PoseidonExample**: the one function of examples/poseidon; `Spec/PoseidonInt_spec.v` is an
  executable reference over the integers, checked against the vectors of the repository's tests.
* **Layout**: every `#[storage]` struct of contracts/src and of the examples, as a tree of field
  types, and where the SDK puts the fields: the packing loop of the `#[storage]` attribute, map and
  array slots, reading and writing packed values. The SDK is not in the repository; this part follows
  its documentation. One detail of the attribute (whether `REQUIRED_SLOTS` counts a partly used slot
  in front of a nested struct) is a parameter; `c82_either_count` shows that no example depends on it.
* **Entry**: a contract as a function from (sender, value, calldata) to return or revert data:
  dispatch by the Router tables, decoding and validation of arguments, encoding of results. This is
  what `#[entrypoint]`, `#[public]` and `abi_decode_params(.., true)` of alloy-sol-types 0.8.20 do
  (neither is in the repository); a `String` must be UTF-8 (`Utf8`). `EntryErc20` puts
  examples/erc20 and the plain `Erc20` behind it, and has the calldata the library sends to tokens.
* **EntryErc721**: examples/erc721 as a table of functions for the entry point, the calldata of the
  receiver hook and the decoding of what comes back. Receivers answer as a `world` says, another one
  for each call; they cannot call back (the example is built without `reentrant`). Left out: that a
  receiver may run out of gas, and return data longer than memory.
* **EntryPermit**: examples/erc20-permit and examples/ecdsa as tables of functions for the entry point.
  The hash function and the precompile are arbitrary; `Spec/EntryPermit_spec.v` also gives the
  precompile as the EVM specifies it, with recovery of a curve point left as an arbitrary partial
  function.
* **EntryVault**: examples/erc4626 and examples/erc20-wrapper as tables of functions for the entry
  point, on a chain with a library token; calls to the token are bytes to its entry point. Other
  addresses have no code.
* **merkle-proofs example behind its entry point** (`Model/EntryMerkle.v`): the two functions and the four errors of examples/merkle-proofs/src/lib.rs over `Model/Merkle.v` with Keccak-256.
* **erc1155 example behind its entry point** (`Model/EntryErc1155.v`): the table of its functions, the calldata of both receiver hooks (token/erc1155/receiver.rs) and the decoding of what a receiver answers, over `Model/Erc1155Example.v`.
* **vesting-wallet example behind its entry point** (`Model/EntryVesting.v`): the table of its functions and its `#[receive]` (examples/vesting-wallet/src/lib.rs), over `Model/Vesting.v`; its calls to the token are bytes. Every other account answers a call as a `payees` says, another one for each call; while it is being paid an owner does nothing else on this chain (re-entering payees are in C20). Calls come from other addresses than the wallet's own. Contract creation and self-destruct, which can push money into an account without a call, are not modelled.
* **access-control, ownable and ownable-two-step examples behind their entry points** (`Model/EntryAccess.v`, `Model/OwnableExample.v`): the tables of their functions over `Model/AccessExample.v`, `Model/Ownable.v`, `Model/Ownable2Step.v` and `Model/Erc20.v`. These contracts have no `mint`; the theorems start from any ledger that a history of the library's token leads to.
* **FlashCache** (`Model/FlashCache.v`): `flash_loan` of FlashMint with the one difference that matters under re-entrancy: after the callback the supply is what the accessor `erc20.total_supply` remembers. That `StorageU256` of stylus-sdk 0.8.4 remembers (a `OnceCell` in the accessor, written by `get` and `set`) and that accessors inside a `StorageMap` are made anew are assumptions about the SDK, whose source is not in the sandbox and was not checked. C09 is about accessors that read the storage each time, C96 about those that remember; no other modelled function holds a word's accessor across a call that can come back (the other examples refuse re-entrancy).
* **EntryFlash** (`Model/EntryFlash.v`): the deployed flash-mint example as an entry point; a visit is a call as bytes together with who has code, what the borrower's turn calls (again visits, depending on the receiver and the calldata of the callback) and what it answers. Borrowers that choose their next call by earlier answers are covered, as every run of theirs is the run of some such visits. A borrower's failed or undecodable answer is the error of flash_mint.rs:340-342. Uses `flash_loan_cached` (the SDK assumption of FlashCache). Fee and fee receiver are what constructor.sol stored.
* **EntrySafe** (`Model/EntrySafe.v`): the deployed safe-erc20 example as an entry point; the world is any type with any call function on bytes. Which addresses have code does not change during a call. `coins_call` is the world whose contracts are Coins (EntryVault).
* **EntrySupply** (`Model/EntrySupply.v`): the deployed erc1155-supply example as an entry point; receivers as in EntryErc1155.
* **Utf8** (`Model/Utf8.v`): `core::str::from_utf8` as the table of byte ranges, used by the decoder for `String` arguments; proved equivalent to being the encoding of a list of scalar values (`Spec/Utf8_spec.v`).
* **EntryMeta** (`Model/EntryMeta.v`): the deployed erc721-metadata example as an entry point; name and symbol are what the storage strings read as.
* **EntryUri** (`Model/EntryUri.v`): the deployed erc1155-metadata-uri example as an entry point; the URI given at deployment is what the storage string reads as.
* **EntryConsecutive** (`Model/EntryConsecutive.v`): the deployed erc721-consecutive example as an entry point, on the storage its constructor leaves (`Model/ConsecutiveExample.v`).
* **EntryBasic** (`Model/EntryBasic.v`): the deployed examples/basic/token as an entry point; name and symbol are what the Solidity constructor stored.
* **EntryPoseidon** (`Model/EntryPoseidon.v`): the deployed examples/poseidon as an entry point; a fixed array of two words decodes as two words in place.
* **EntryWrapper721** (`Model/EntryWrapper721.v`): the deployed examples/erc721-wrapper as an entry point. Each outgoing call meets a world of its own, so the collection and the receivers may answer anything at any time; they cannot call back (no `reentrant` feature). Calls to addresses without code succeed without data. Whether return data of a function that declares none is accepted is a parameter.
* **VaultHooks**: the functions of Erc4626 over an asset that runs arbitrary nested calls before
  debiting a sender and after crediting a receiver (ERC-777).
* **Hostile assets** (C79): `Spec/Hostile_spec.v` lets the asset be any function that answers bytes
  and changes the world in any way that calls to the contract can, nested without bound.
* **Examples** (erc20, erc721, erc1155, access-control, erc1155-supply): which function overrides
  which is read off the `#[public]`/`#[inherit]` attributes by hand; built without `reentrant`.
* **Introspection**: selectors and interface ids with an executable Keccak-256; camel-casing
  for the names that occur.
* **Router**: what `#[public]` and `#[inherit]` make of every public block of the library and of
  the 20 examples: selector from name and argument types, own functions before inherited ones in
  the order of the attribute. The macros are not in the repository; this is their documented
  behaviour. The lists were extracted from the text of `/repo` by a script.

* **SolAbi**: the raw logs (topics, data) of every event and the revert data of every error the
  modelled contracts use, as `sol!`, `evm::log` and `#[derive(SolidityError)]` make them by the
  Solidity ABI (the macros are not in the repository).

## What is not modelled

ABI encoding of call arguments and return values except for the contracts of C85, C87-C95 and C97-C105
(the other models of examples encode by hand which function overrides which; C76 checks that against the dispatch), gas,
ink, the SDK's storage cache (the models use typed states, and read them each time; where that matters, see C96; C82 says when raw storage is such a
state), the Stylus runtime,
`lib/motsu`/e2e test tooling, benches, Debug/Display/Zeroize impls, constant-time
behaviour, the operator-forwarding impls (`Add<&T>`, `AddAssign`…) of `lib/crypto`, the
loop macros of `const_helpers.rs` (read as plain loops).

## Plan per property

Numbers refer to `properties.jsonl`.

| id | model | proof idea |
|----|-------|-----------|
| C01 | ERC20 state, all entry points, histories | invariant Σ balances = supply ≤ 2^256-1 by induction on histories; unchecked ops shown not to wrap under the invariant |
| C02 | same | exhaustive case analysis to an iff + frame statement |
| C03 | same, with a ledger of debits per spender | induction over the history |
| C04 | same, events in the state | replay function over events, invariant `replay log = balances` |
| C05 | same, raw functions and `tx` | case analysis, plus a witness that transfer_from keeps a spent allowance on error |
| C06 | same | case analysis under the invariant |
| C07 | example contract = ERC20 + cap + pause | invariant over histories |
| C08 | permit with arbitrary recover/digest function, nonces | functional spec + history lemma on nonces |
| C09 | flash loan with call trees (arbitrary nested calls); accessors that read the storage each time, see C96 | mutual induction over call trees |
| C10 | wrapper + honest ERC20 underlying (second instance) | two-contract invariant over interleaved histories |
| C11 | conversions via mul_div model | arithmetic |
| C12 | as C11 on vault states | nonlinear arithmetic over Z |
| C13 | vault = shares ERC20 + asset ERC20 | per-op inequality, induction over histories |
| C14 | vault ops | functional spec of each op |
| C15 | vault ops | iterate redemption over holder lists |
| C16 | conversions | nonlinear arithmetic |
| C17 | arbitrary token oracle (has code, revert, return bytes) | case analysis; allowance helpers against honest and USDT-like tokens |
| C18 | vesting_schedule | arithmetic |
| C19 | wallet state machine with deposits and time | invariants over histories |
| C20 | release_eth with nested re-entrant releases | induction over nesting depth |
| C21 | releasable_erc20 with arbitrary balance | expected refuted (wrapping subtraction), witness |
| C22, C23 | AccessControl with arbitrary role graph | per-op spec, history induction, event replay |
| C24 | Ownable | invariants |
| C25 | Ownable2Step | history with provenance of nomination |
| C26 | Pausable | refinement to last-op automaton |
| C27 | Nonces | refinement to counters, history induction |
| C28 | BitMap on words | bit lemmas, refinement to a set |
| C29 | Checkpoints trace as list, binary searches with fuel | search invariants, refinement to an association list |
| C30 | sqrt | Newton error analysis in exact integer arithmetic for every range |
| C31 | average, mul_div | bit lemma, arithmetic |
| C32–C37 | ERC721 | invariants, frame conditions, event replay, receiver oracle |
| C38, C39 | Consecutive over Checkpoints, BitMap, ERC721 | refinement; C39 expected refuted with a witness |
| C40, C41 | Enumerable over ERC721 | list refinement; C41 expected refuted with witnesses |
| C42 | wrapper + honest ERC721 underlying | two-contract invariant |
| C43 | URI functions on strings | decimal representation injectivity |
| C44–C48 | ERC1155 with batches | fold invariants, sequential equivalence, event replay |
| C49, C50 | Supply extension | invariant; C50 expected refuted, with the mod 2^256 variant proved |
| C51 | ERC2981 | arithmetic and config history |
| C52 | ECDSA with arbitrary precompile | case analysis |
| C53 | EIP712 byte layout | list injectivity |
| C54–C56 | Merkle with arbitrary hash | induction over trees/proofs; queue argument for multi proofs |
| C57–C59 | limbs as lists of Z in base 2^64 | positional-value lemmas |
| C60, C61 | Montgomery arithmetic on limbs | loop invariants; binary-gcd termination measure |
| C62 | constants | Pocklington certificates checked by a verified checker |
| C63, C64 | Jacobian formulas over an abstract field | `field`/`nsatz`-style algebra |
| C65, C66 | Poseidon2 over an abstract prime field | matrix equality, inverse functions, Fermat |
| C67 | Nonces | expected refuted at library level |
| C68 | ERC-1155 URI storage | replay of the settings |
| C69 | affine group law | associativity by polynomial identities, chord/tangent cases |
| C70 | interface ids from signatures and an executable Keccak-256 | evaluation, then a statement about all ids |
| C71 | ERC-4626 over an asset with hooks: call trees before/after each transfer | rate inequality kept by every step, mutual induction over trees; the other two hook positions refuted |
| C72 | multi proofs read off a complete tree in array layout | the verifier's queue follows the climb, induction on the number of flags |
| C73 | examples/erc1155 = ERC-1155 + Pausable | case analysis per call, translation of histories to the plain contract |
| C74 | examples/access-control | case analysis; last clause expected refuted (public `set_role_admin`) |
| C75 | examples/erc1155-supply | expected refuted (public `_burn`); what remains proved |
| C76 | dispatch of all examples | each signature hashed once, the rest by comparison; the wrapper's hook expected refuted |
| C77 | raw logs of all events; an indexer knowing the published ABI only | each topic hashed once; invariant that logged numbers are words; the replay theorems C04, C23, C36, C48 |
| C78 | revert data of all errors; a reader knowing the published selectors only | same; errors of reachable states; imitation by a receiver expected refuted |
| C79 | vault and wrapper over an arbitrary asset that re-enters | induction on the evolution: every step is a history of ERC-20 operations; budget lemma of C03. Backing and price (C10, C13) expected refuted for fee-taking assets |
| C80 | erc721-consecutive example from its constructor on | refinement of C38/C39 without batches after deployment, so neither defect can occur; last clause expected refuted (public `_burn`) |
| C81 | shipped hashes over the integers; Poseidon example | `into_bigint` is a homomorphism, so C65/C66 transfer; texts of the constants compared by computation |
| C82 | storage layout against Solidity's rules, no overlaps, constructors | induction over type trees and places; near-collisions of the hash as the only exception; the examples by computation |
| C83 | spending of a permit token against calls and signed messages | potential over histories; nonces number the messages used; injectivity of the digest up to collisions of named strings |
| C84 | ordered lists of checks per call (`Spec/Errors_spec.v`) against the models | case analysis; composition lemma for sequences of calls; induction over batches |
| C85 | entry point: dispatch, argument decoder, answers as bytes (`Model/Entry.v`); examples/erc20 behind it; an ideal token over the integers that knows nothing of the model (`Spec/Entry_spec.v`) | decoder inverts encoder on its image; every call is a request or has no effect; C84 gives verdicts, C02–C07 effects |
| C86 | what a wallet does: EIP-712 for flat structs and ERC-5267's fields byte, written without the library (`Spec/TypedData_spec.v`) | type strings are uniquely readable; struct hashes determine type and contents up to named collisions |
| C87 | examples/erc721 behind the entry point, with a world of contracts that answer the hook (`Model/EntryErc721.v`); an ideal register of tokens that knows nothing of the model (`Spec/EntryNft_spec.v`) | invariant relating getters and register; verdicts by unfolding each call; C40 for the enumeration by owner |
| C88 | examples/erc20-permit and examples/ecdsa behind the entry point, at a block time per call (`Model/EntryPermit.v`); an ideal ledger with nonces, what a wallet signs, and the Yellow Paper's ecrecover (`Spec/Ledger_spec.v`, `Spec/EntryPermit_spec.v`) | invariant relating getters and ledger; verdicts by unfolding each call; C86 for the digest, C83 for the sleeping account |
| C89 | examples/erc4626 and a library token behind their entry points on one chain, the vault's outgoing calls as bytes (`Model/EntryVault.v`); two ideal ledgers and exact fractions (`Spec/EntryVault_spec.v`) | a Hoare-style relation between model runs and verdicts, composed over the monad; the price by an invariant over arbitrary histories |
| C90 | examples/erc20-wrapper and a library token behind their entry points on one chain (`Model/EntryVault.v`); two ideal ledgers (`Spec/EntryVault_spec.v`) | as C89, with the surplus in place of the price |
| C91 | examples/merkle-proofs behind its entry point with the real Keccak (`Model/EntryMerkle.v`); proofs over numbers, trees, lists of strings (`Spec/EntryMerkle_spec.v`) | big-endian order is numeric order; queue invariant for multi proofs; soundness by induction from the root; collisions name the strings hashed |
| C92 | examples/erc1155 behind its entry point with receivers called by bytes (`Model/EntryErc1155.v`); ideal book, requests, verdicts (`Spec/EntryMulti_spec.v`) | outcome of the code and verdict related step by step through the checks; what the getters show determines the typed part of the state; induction over raw calls |
| C93 | examples/vesting-wallet behind its entry point and `#[receive]`, with money, clock, payees and a token called by bytes (`Model/EntryVesting.v`); ideal wallet, wishes, questions (`Spec/EntryVesting_spec.v`) | token by bytes equals the honest token; outcome of each function from the lemmas of C18-C21; what the getters show determines the relevant state; induction over raw calls |
| C94 | examples/access-control behind its entry point (`Model/EntryAccess.v`); ideal roster and ledger (`Spec/EntryAccess_spec.v`) | each function meets its list of checks (`Proofs/EntryAccess_lemmas.v`); the getters determine the book; invariants of the ideal book lift to histories of raw calls |
| C95 | examples/ownable and examples/ownable-two-step behind their entry points (`Model/EntryAccess.v`, `Model/OwnableExample.v`); ideal owner, heir and ledger (`Spec/EntryAccess_spec.v`) | as C94 |
| C96 | `flash_loan` over remembering accessors (`Model/FlashCache.v`) | the token's functions read or write the supply only in mint and burn; trees of calls by mutual induction, with the supply lowered to the sum of balances as the invariant |
| C97 | examples/erc20-flash-mint behind its entry point, with re-entrant visits (`Model/EntryFlash.v`) | ideal ledger modulo 2^256; a loan is two lists of checks around the borrower's turn; visits by mutual induction |
| C98 | examples/safe-erc20 behind its entry point, any world (`Model/EntrySafe.v`) | verdict as a short dialogue of bytes with the token; instances: tokens with working approvals, families of ledgers |
| C99 | examples/erc1155-supply behind its entry point (`Model/EntrySupply.v`) | an ideal collection with supplies (`Spec/EntrySupply_spec.v`), read through the getters; `adds_up`: sums over holders and tokens |
| C100 | examples/erc721-metadata behind its entry point (`Model/EntryMeta.v`); UTF-8 validation of `String` arguments (`Model/Utf8.v`) | an ideal collection with links (`Spec/EntryMeta_spec.v`), following the requests of the history; UTF-8 as the encoding of scalar values (`Spec/Utf8_spec.v`) |
| C101 | examples/erc1155-metadata-uri behind its entry point (`Model/EntryUri.v`) | an ideal collection with links and no mint (`Spec/EntryUri_spec.v`), following the requests of the history |
| C102 | examples/erc721-consecutive: constructor.sol, then the entry point (`Model/EntryConsecutive.v`) | the batches handed out as a list, then the plain register of C92/C100 (`Spec/EntryConsecutive_spec.v`) |
| C103 | examples/basic/token: the entry point (`Model/EntryBasic.v`) | the ideal ledger of `Spec/Ledger_spec.v` with three labels (`Spec/EntryBasic_spec.v`) |
| C104 | examples/poseidon behind its entry point (`Model/EntryPoseidon.v`), with decoding of a fixed array | selector, two words, and the executable reference of C81 (`Spec/EntryPoseidon_spec.v`) |
| C105 | examples/erc721-wrapper behind its entry point (`Model/EntryWrapper721.v`), foreign contracts answering arbitrarily at every call | getters before and after, answers of the other contracts (`Spec/EntryWrapper721_spec.v`) |

Each row is `proved`, `partial` or refuted in `MANIFEST.json`.

## Outcome: what turned out to be false

For each of these the theorem `..._refuted` exhibits the counterexample and the theorems with
suffix `_partial` say what does hold.

* **C16** (last clause): the donation in an inflation attack need not *exceed* 10^offset times
  the victim's loss, equality can occur. With "at least" it holds.
* **C17**: return data shorter than 32 bytes whose last byte is 1 is taken for `true`.
* **C21**: when a token balance drops below what was released, the wrapping subtraction makes
  `releasable` huge and `release` panics.
* **C38**: a batch ending at the last 96-bit id wraps `_next_consecutive_id` to zero, burns are
  then not recorded; a first batch running past 2^96 credits a balance without tokens.
* **C39**: a single mint of an id that a later batch covers makes that batch count it
  again (`ERC721ForbiddenMint`, `ERC721ForbiddenBatchMint` are declared, never raised).
* **C41**: a token with id 0 is reported `OutOfBounds` although it is in its owner's list; a
  transfer to self through the shipped example corrupts that list.
* **C50**: `total_supply_all` adds a batch's values with wrapping `Sum`; minting 2^255 of each of
  two ids leaves it at zero.
* **C58**: `ct_rem` of zero underflows. **C59**: leading zeros make the parser panic.
* **C67**: a rejected nonce is consumed when the caller handles the error.
* **C70**: `AccessControl::supports_interface` denies the published id of IAccessControl,
  since the guard `only_role` is a function of the trait (unit tests assert the difference).
* **C74** (last clause): `set_role_admin` is public in the example (the source warns that it is
  for testing), so whoever holds any role can give every role to everybody in two calls.
* **C75**: the example exposes `_burn` and `_burn_batch` unguarded: anybody can burn anybody's
  tokens.
* **C76**: the ERC-721 wrapper example exports its hook as `onErc721Received` (camelCase of the
  Rust name, no `#[selector]`), so the ERC-721 selector `0x150b7a02` finds no function and every
  safe transfer to the wrapper fails.
* **C78** (last clause): the data of `InvalidReceiverWithReason` is whatever the receiver reverted
  with (not, as documented, only `Error(string)` or `Panic(uint256)`), for instance an error of the
  token itself. Also the errors of `SafeErc20` have other names, hence selectors, than those of
  OpenZeppelin's SafeERC20 (`c78_safe_erc20_selectors_refuted`).
* **C80** (last clause): the example exposes `_burn` unguarded: anybody can burn any token
  (`c80_anybody_burns`). The defects C38 and C39 cannot occur in it.

* **C82**: not every constructor.sol declares the Rust contract's variables
  (`c82_declarations_refuted`): both erc1155 examples declare `_balances` with the keys in the other
  order (`c82_erc1155_balances_refuted`), and erc20 declares a mapping of nonces that the contract
  does not have (`c82_erc20_nonces_refuted`). Harmless as these constructors do not touch them:
  `c82_constructors` proves that what they touch is in the right bytes.

* **C08, C53, C83**: "or the hash collides" always names the strings that collide (`collides` in
  Permit_spec). Saying only that some collision exists would be true of every hash into words and
  make the theorem empty; an earlier version of C53 and C08 did that.
* **C93**: the error `ReleaseEtherFailed()` that vesting_wallet.rs declares in Solidity terms never reaches a caller: the variant carries the SDK's `call::Error`, whose encoding is the payee's own revert data. A payee can therefore make `release()` fail with data that read as any other error, and a wallet owned by itself or by the token cannot pay out.
* **C94**: `setRoleAdmin` of examples/access-control is open to everybody. `c94_any_member_takes_any_role`: the holder of any role gets every role with two calls; `c94_anybody_freezes_a_role`: an outsider shuts the administrators of a role out with one; `c94_transfer_role_cannot_escalate_refuted` is a concrete case.
* **C95**: `transfer` of examples/ownable and examples/ownable-two-step overrides ERC-20's with a function without a result (`c95_owner_transfer_answers_a_flag_refuted`, `c95_two_step_transfer_answers_a_flag_refuted`), and its owner guard is bypassed by `approve` of oneself and the inherited `transferFrom` (`c95_owner_guard_is_bypassed`, `c95_two_step_guard_is_bypassed`).
* **C96** (and C09): `flash_mint.rs` declares `Erc20FlashMint` to be top-level storage (`unsafe impl`), so the accessor of `total_supply` survives the borrower's callback. `c96_supply_is_the_sum_refuted`: with only public functions of the library and a destroyed fee, nested loans leave a supply of 5 with no tokens; `c96_minting_in_a_callback_breaks_the_ledger`: where `mint` is public (examples/erc20-flash-mint), balances exceed the supply and then wrap. `c96_no_difference_when_callbacks_keep_the_supply` is the condition under which C09 holds unchanged.
* **C97**: `c97_supply_is_the_sum_refuted` is the finding of C96 by bytes, from a new contract.
* C105: the documented `Erc721FailedOperation` for an underlying address that is no contract is refuted (`c105_not_a_collection_refuted`): the call to an address without code succeeds and the wrapper mints.

Findings recorded as extra theorems of proved properties: an asset that runs hooks after crediting
the vault or before debiting it breaks the share price (C71, `c71_hook_after_deposit_refuted`,
`c71_hook_before_payout_refuted`); over an asset that takes a fee the
wrapper is not backed and the price of shares falls (C79, `c79_wrapper_backed_refuted`,
`c79_price_never_falls_refuted`); inner `burn` reached through `Deref`
bypasses the supply tracking (C49, `c49_inner_burn_refuted`); an unset royalty denominator is
zero, not the documented 10000, and every query panics (C51); field inversion diverges on the
non-units of a composite modulus (C61); Poseidon2 does no padding, so inputs that differ by
trailing zeros within a block collide (C66); the Poseidon example reduces its inputs, so `(0, 0)`
and `(p, 0)` collide (C81, `c81_no_trivial_collisions_refuted`); `TransferFrom` keeps a spent allowance on error until
the transaction is rolled back (C05).

## Assumptions

None: every property theorem is closed under the global context.

## Mutation testing

`seeded/LOG.jsonl` has one line per wrong program tried: which definition was edited, how, the
claim it breaks, the theorems whose proof failed, and those that were tightened because they
did not fail at first. The edits are made in a scratch copy, which is then rebuilt.
