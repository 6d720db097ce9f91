# Design: a Rocq model of the Solana side of Native Token Transfers

The subject is `/repo/solana` (rust). Nothing in `/repo` is built, run or changed; the model is written by
reading it. Paths in comments are relative to `/repo` or, where unambiguous, to the crate named at the head of the file.

## 1. Files

Every theory is in `rocq/theories`, listed in `rocq/_CoqProject` in dependency order.

| part | model (definitions only) | specification vocabulary | proofs | properties | code it follows |
|---|---|---|---|---|---|
| integers, results, bytes | `Base`, `Bytes` | | `BytesFacts` | | Rust checked/saturating arithmetic, wormhole-io 0.1.3 primitives |
| amounts | `Trimmed` | in `PropsAmounts` | `TrimmedFacts` | `PropsAmounts` | `modules/ntt-messages/src/trimmed_amount.rs` |
| wire codecs, digests | `Wire` | `SpecWire` | `WireFacts` | `PropsWire` (test vectors through `Hex`) | `modules/ntt-messages/src/{ntt,ntt_manager,transceiver,mode,chain_id}.rs`, `transceivers/wormhole.rs` |
| bitmaps | `Bitmap` | `SpecBitmap` | `BitmapFacts` | `PropsBitmap` | `bitmap.rs` |
| rate limiter | `RateLimit` | `SpecRate` | `RateLimitFacts` | `PropsRate` | `queue/rate_limit.rs`, `clock.rs` |
| stored accounts | `Sha256`, `Borsh`, `AccountTypes`, `Accounts` | | `AccountsFacts` | `PropsAccounts` | every `#[account]` of the manager, zero-copy accessors of `messages.rs` |
| derived addresses | `Seeds` | | `SeedsFacts` | `PropsAccounts` | every `seeds = [...]` of manager, transceivers, governance, quoter |
| platform | `Chain` | | `ChainFacts` | | accounts, SPL token and Token-2022 operations, loader, core bridge |
| manager and transceivers | `Manager` | `SpecAdmin`, `SpecTransfer` | `ManagerFacts`, `Changes`, `TokOps`, `Rest`, `Ledger`, `Inv`, `Kept`, `AdminFacts`, `Flow`, `AuthorityFacts`, `OutFacts`, `PayFacts`, `DelegateFacts`, `LogFacts`, `InFacts`, `FlowFacts`, `VtmFacts`, `LiveFacts` | `PropsAdmin`, `PropsOut`, `PropsIn`, `PropsFlow` | all instructions of `example-native-token-transfers` and `ntt-transceiver` |
| executions | `Exec` | | `Transact`, `Scenario` (worked deployment) | | instructions, environment, histories, transactions |
| bytes of published messages | `Bridge` | in `Bridge` | `BridgeFacts` | `PropsBytes` | links `Chain`'s symbolic messages and hashes to `Wire` |
| lookup table | `Lut` | in `Lut` | `LutFacts` | `PropsLut` | `instructions/luts.rs` and the address lookup table program |
| exact effects | | `SpecEffect`, `SpecMove` | `EffectFacts`, `MoveFacts` | `PropsEffect`, `PropsMove` | conditions and effects of the manager's and transceivers' instructions |
| networks | `Network` | in `Network` | `NetFacts` | `PropsNet` | several deployments exchanging messages |
| relay quoter | `Quoter` | `SpecQuoter`, `SpecQEffect` | `QuoterFacts`, `QEffectFacts` | `PropsQuoter`, `PropsQEffect` | `programs/ntt-quoter` |
| governance | `Governance` | `SpecGov` | `GovFacts` | `PropsGov` | `programs/wormhole-governance` |
| instruction data | `Dispatch` | `SpecDispatch` | `DispatchFacts` | `PropsDispatch` | `lib.rs` of every program, argument structs (Anchor's entry point) |
| entry point | `Entry` | `SpecEntry`, `SpecIdl` | `EntryFacts`, `IdlFacts` | `PropsEntry`, `PropsIdl` | every `#[derive(Accounts)]` struct of manager and transceivers: positions, privileges, pinned addresses |
| quoter's entry point | `QEntry` | `SpecQEntry` | `QEntryFacts` | `PropsQEntry` | every `#[derive(Accounts)]` struct of the quoter |
| transfer hooks | `Hook` | `SpecHook` | `HookFacts` | `PropsHook` | the token movements of the manager run together with an arbitrary hook program; `programs/dummy-transfer-hook` |
| lamports | `Lamport` | `SpecLamport` | `LamportFacts` | `PropsLamport` | payers, rent and the bridge's fee in every instruction of manager and transceivers |
| bytes of addresses | `Derive` | `SpecDerive` | `DeriveFacts` | `PropsDerive` | `Pubkey::find_program_address` applied to every symbolic address |
| governance and manager together | `Governed` | `SpecGov`, `SpecAdmin` | `GovernedFacts` | `PropsGoverned` | the governance program as owner of a deployment |
| governance calling manager and transceiver | `GovCall` | `SpecGovCall` | `GovCallFacts` | `PropsGovCall` | governance messages run through the entry points of `Entry.v` |
| published types | none (`Accounts`, `Dispatch`) | `SpecTypes` | `TypesFacts` | `PropsTypes` | the `args`, `accounts` and `types` of `solana/ts/idl/3_0_0/json`, printed by `tools/idl_types.py` |
| panics | none (all of the above) | `SpecPanic` | `PanicFacts` | `PropsPanic` | every overflow check, `assert!` and `unwrap` met after the accounts are read |
| surroundings | none (the environment of `Exec`) | `SpecWorld` | `WorldFacts` | `PropsWorld` | what token programs, core bridge, loader, clock and third-party programs do by themselves |
| errors | `Errors` (numbering) | `SpecErrors` | `ErrorFacts` | `PropsErrors` | the error enumerations of the three programs, their numbers, and when each is reported |
| extra accounts of hooks | `Resolve` | `SpecResolve` | `ResolveFacts` | `PropsResolve` | `programs/dummy-transfer-hook` at the level of bytes; the manager's use of `onchain::invoke_transfer_checked` with `remaining_accounts` |
| copies of accounts | none (`Entry`, `QEntry`) | `SpecAlias` | `AliasFacts` | `PropsAlias` | the accounts that every instruction holds deserialized |
| EVM side | `Evm` | `SpecEvm` | `EvmFacts`, `EvmLink` | `PropsEvm` | codecs and amounts of `evm/src`, for the agreement of the two sides |
| client library | `Client` | `SpecClient` | `ClientFacts` | `PropsClient` | layouts, digests and derived addresses of `sdk/definitions` and `solana/ts/lib`, for their agreement with the programs |
| client's instructions | `Builder` | `SpecBuilder` | `BuilderFacts` | `PropsBuilder` | instructions and transactions of `solana/ts/lib/ntt.ts` and `solana/ts/sdk/ntt.ts` |
| client's transactions | `Builder` | `SpecTx` | `TxFacts` | `PropsTx` | what the transactions of `solana/ts/sdk/ntt.ts` do as a whole |
| client and quoter | `QBuilder` | `SpecQBuilder` | `QBuilderFacts`, `QTxFacts` | `PropsQBuilder` | `solana/ts/lib/quoter.ts`, automatic transfers of `solana/ts/sdk/ntt.ts` |
| histories with a ledger that changes in any way | | `Wild` | `WildFacts` | `PropsWild` | what Token-2022 extensions can do to token accounts and mints |
| transactions as bytes | `TxWire` | in `TxWire` | `TxWireFacts` | `PropsTxWire` | the bytes of the versioned transactions of `solana/ts/sdk/ntt.ts` |
| rate limits over histories | as above | `SpecWindow` | `WindowFacts`, `WildWindowFacts` | `PropsWindow`, `PropsWildWindow`, `PropsSubmitWindow` | nothing new is modelled |
| what can be lost within a day | as above | `SpecDrain` | `DrainFacts` | `PropsDrain`, `PropsSubmitDrain` | nothing new is modelled |
| who can delay whose transfer | as above | `SpecDelay` | `DelayFacts`, `WildDelayFacts` | `PropsDelay`, `PropsWildDelay` | nothing new is modelled |
| limits of zero | as above | as above | `BrakeFacts`, `WildBrakeFacts` | `PropsBrake`, `PropsWildBrake` | nothing new is modelled |
| replaced peers | as above | `SpecCut` | `CutFacts` | `PropsCut` | nothing new is modelled |
| packets run on the state | `Submit` | in `Submit` | `SubmitFacts` | `PropsSubmit` | `TxWire`, `Compress` and `Entry` put together as the cluster does |
| messages with lookup tables | `Compress`, `Upkeep` | in `Compress` | `CompressFacts`, `UpkeepFacts` | `PropsCompress` | versioned transactions of `solana/ts/sdk/ntt.ts`, upkeep of the lookup table in `solana/ts/lib/ntt.ts` |
| client's reads | `Reads` | `SpecReads` | `ReadsFacts` | `PropsReads` | what `solana/ts/sdk/ntt.ts` reads and caches, tracking and quotes of `sdk/route/src` |
| stored bumps | `Bump` | `SpecBump` | `BumpFacts` | `PropsBump` | the bump byte of every account, and the checks `bump = x.bump`, beside `Quoter.v` |
| older interfaces | | `SpecOld` | `OldFacts` | `PropsOld` | tables of generations 1.0.0 and 2.0.0, printed by `tools/idl_old.py` |
| the repository's tests | | | | `RepoTests` | the Rust unit and integration tests and the main test of `tests/anchor.test.ts`, run on the model with the values they expect; tests of the model, not proofs |
| returned values | `Returned` | in `PropsReturned` | | `PropsReturned` | return data of the programs and the client's choice of interface |
| platform | none (`Lut`, `Quoter`) | `SpecPlatform` | `PlatformFacts` | `PropsPlatform` | the lookup table program, and lamports and loader beside the quoter |

Property theorems are in `Props*.v`. Each is followed by `Print Assumptions` and by an `Example` that meets its hypotheses on
concrete, non-trivial values. `tools/manifest.py` derives `MANIFEST.json` from the theorem names and `tools/notes.json`;
`tools/design.py` fills the table of section 3.

## 2. Modelling decisions

* **Integers** are `Z` with explicit ranges. The workspace sets `overflow-checks = true`, so plain `+ - *` on
  overflow panic; a panic is the error value `Panic`, and like every error it aborts the instruction.
* **Atomicity.** A Solana instruction that errors aborts its transaction and reverts every account. A handler is a
  function `state -> ... -> result state`; on `Err` the old state stays. Transactions are lists of instructions
  executed all-or-nothing; C56 shows what this gives.
* **Accounts.** The store is a map from addresses to (owner program, typed contents). Anchor's
  `Account<T>` check (owner and discriminator) is the match on owner and constructor. Accounts that the code
  pins by `seeds` are looked up at the derived address; accounts the code does not pin are taken from the
  (adversarial) caller, at any address. Uniqueness of e.g. the configuration is then a theorem, not an assumption.
  `Entry.v` models the account lists themselves; C73 shows that every accepted list leads to an instruction of `Exec.v` and the other way
  round, and that no instruction reads or writes an account it is not passed. `SpecIdl.v` holds the
  account tables of the repository's generated IDL (`solana/ts/idl/3_0_0/json`), transcribed by a script, and C75 proves that `Entry.v` agrees with
  them: names, order, privileges, meaning of the data, and that the names of native programs and sysvars stand for these. The position of the lookup table program is
  the exception: the code asks only for some program there. `QEntry.v` does the same for the quoter (C81, C82). Anchor reads the program's own id in the place of an
  optional account as its absence, so the quoter's own id cannot be named as the assistant; the system program's id is the default key, so `systemProgram` stands for the
  address that also means "no assistant".
  The link from typed contents to bytes is C13 (storage round trip) and C12 (in-place accessors).
* **Copies of accounts.** Anchor reads the accounts of an instruction into copies and writes them back at its end; the model works on one state. C91 proves that no
  account an instruction rewrites is ever passed in two such places (`loaded` in `SpecAlias.v` lists them), so that the two ways agree. The bridge account of
  `initialize_lut` is left out of the list. The initial ledger is assumed to have at most one kind of account (data, token, mint) at an address.
* **The EVM side.** `Evm.v` models the codecs of `TransceiverStructs.sol`, the arithmetic of `TrimmedAmount.sol` and the two places of `NttManager.sol` that use it,
  only to state C92 and C93: the Solidity code is not otherwise under verification. The unchecked readers of wormhole-solidity-sdk are not in the repository; they are
  taken to revert, at the final length check, whenever they would read past the end.
* **The client library.** `Client.v` models the layouts of `sdk/definitions/src/layouts`, the digests and the derived addresses of `solana/ts/lib`, only to state C94
  and C95. The interpreter of layouts (`@wormhole-foundation/sdk-base`) is not in the repository; it is taken to read a string to its end or to throw. Which chains the
  library knows is a parameter. `Builder.v` models the functions that build instructions, on the published interfaces of `SpecIdl.v`, for C96. Anchor's client
  (`@coral-xyz/anchor`) and `getWormholeDerivedAccounts` are not in the repository: the former is taken to place the accounts it is given by name, to add those of
  its five well-known names, and to throw if one is missing; the latter to give the core bridge's accounts. Extra accounts of transfer hooks are `at_least`'s further ones. A transaction (`submit`,
  C97) is the sequence of its instructions, all or nothing, with the privileges of each account merged over all of them. The instruction that creates the payer's
  token account, those that post the message to the core bridge, and the wrapping of SOL are left out of it. `QBuilder.v` adds the quoter's client and the relay request of an automatic
  transfer. Its arithmetic on floating-point numbers is modelled by exact fractions; the theorems then hold for every result within a stated error (`near`, `near_105`).
  `TxWire.v` models `serialize` of `@solana/web3.js`, with its fixed buffers, and how a validator reads a packet; neither is in the repository, and what is in a signature is left out.
  `Compress.v` models `compileToV0Message` of `@solana/web3.js` and what the runtime loads from such a message, for any type of keys; neither is in the repository. Left out: block
  hash and signatures, that the runtime takes the writable privilege from reserved accounts and from programs called, and the slot that passes before new entries of a table can be used. `Upkeep.v` connects it
  with the transactions of `Builder.v` and the tables of `Lut.v`; a map from the addresses of the one to those of the other is a parameter. Extra accounts of transfer hooks are left out, so the bound on
  the size of a transfer (C101) is one without them. `Reads.v` models Anchor's `fetch` as finding, missing or being unable to read an account; a parameter `alive` says which addresses that no program has written
  exist nevertheless, because somebody sent lamports there. `truncate` and `scale` of `@wormhole-foundation/sdk` are not in the repository and read as their names say.
* **Governance calls.** `Governance.v` leaves open what a called program does. `GovCall.v` lets calls to the manager and the stand-alone transceiver run `Entry.v` on the
  accounts and data of the message; a map from 32-byte strings to accounts says which account is meant. As in the runtime, an account listed several times has the
  privileges of all its entries, in nested calls of the governance program too. C83 discharges C71's assumption on called programs for these two.
* **Addresses** are symbolic: a derived address is a constructor applied to the program and its seeds. This is the
  usual assumption that SHA-256 address derivation has no collisions and that nobody has a private key for a derived
  address. What the symbolic form hides, namely that seeds are concatenated without separators, is proved
  separately at byte level (C14). C80 gives every symbolic address its bytes and reduces the assumption to two statements about the
  finitely many strings hashed for the two addresses compared: no two of them have the same hash, and none has a name (key, id) in use as its hash. The latter is
  proved impossible for names on the curve (`C80_keys`). (An earlier form concluded "or the hash has a collision", which holds of every hash with 32-byte output; the
  theorem now names the strings, and an example shows that real addresses do not meet the exception.) The derivation is tested on addresses of the core bridge on mainnet.
* **Hashes.** keccak-256 is a parameter of the model (an arbitrary function, `hashes`). Theorems that need collision-freeness
  say so in a hypothesis about the messages concerned; most do not need it. `Bridge.v` instantiates it with an arbitrary hash of the
  bytes that the code hashes; C64 reduces a shared inbox item or session authority to equal bytes or an explicit collision.
* **Clock** is part of the state; the environment may set it to anything. Theorems that need a monotone clock say so.
* **Token programs.** Balances, supply, owner, delegate and delegated amount, mint authority, decimals, and the
  Token-2022 transfer fee (basis points, maximum, withheld). Transfer hooks and freezes can only make a token operation fail
  (Solana forbids re-entry), so in `Exec.v` they are an arbitrary success flag supplied by the environment. `Hook.v` makes the hook a program with a
  state of its own, called by Token-2022 once the balances of a transfer between two accounts are written; C78 relates the two. `Resolve.v` is separate:
  which accounts have to be passed for a hook, in bytes (C90).
  `Wild.v` drops the ledger: token accounts and mints may be changed, created or removed in any way between two instructions (C108), so that what is stated there does not
  depend on which extensions a mint has. The changes happen between instructions; inside an instruction the token programs do what `Chain.v` says.
* **Environment** steps: clock changes; token operations by anyone who can sign (never a derived address of the modelled
  programs); posting of arbitrary verified wormhole messages; arbitrary writes by third-party programs to
  their own accounts; third-party programs signing with their own derived addresses; changes of the upgrade authority by
  its holder.
* **Lamports.** `Exec.v` leaves them out. `Lamport.v` adds a balance to every address and payers to the instructions; C79 relates the two. The core bridge and
  the lookup table program take from the payer what the environment chooses for the accounts they create. Third parties move lamports of their own addresses and
  accounts at will. Balances together fit 64 bits.
* **Initial states** (`initial` in `Exec.v`): any well-formed ledger in which nothing belongs to the modelled programs yet.
  `reachable` means reached from such a state by any sequence of instructions and environment steps.
* **Networks** (`Network.v`): every chain runs a copy of the same model with the same program addresses. Guardians attest only
  what the core bridge of the named chain recorded. Administrators tell each deployment its own chain id, register only the
  two Wormhole transceivers, and set only transceivers of the network as transceiver peers. Everything else is arbitrary,
  including manager peers, rate limits, decimals told to `set_peer`, delivery order, duplication and loss.

## 3. Properties and theorems

How each is proved: C01-C22 and C57 by arithmetic, inversion of codecs and induction over operation lists; C23-C47, C55, C56, C62-C67 by an
inductive invariant over all executions (`Inv.v`, `Kept.v`), exact change relations for every instruction
(`Changes.v`, `TokOps.v`, `Rest.v`) and induction over histories; C76 by composing the exact effects of C66 and C67 along the route of a transfer; C77 by induction over the token operations of every call (`TokOps.v`), each of which changes one summand or moves between two; C78 by comparing each instruction with its version that calls the hook, and induction over histories; C79 by comparing each instruction with its version with payments, whose bill is computed from the change of the chain state, and induction over histories; C80 by induction over symbolic addresses; C48 by an injection of payouts into deposits over network
histories; C49-C52, C58, C59, C68, C69 and C53, C54, C60, C61, C70 by the same method over the quoter's and the governance program's executions; C71 over executions of governance and manager together; C72 by exact inversion of the argument codecs and computed tags; C73, C74 by relating two runs of each instruction on states that agree on the accounts passed; C75 by comparing the tables of `Entry.v` with those of `SpecIdl.v` case by case; C81, C82 likewise for the quoter; C83 by composing C71 with the entry points; C84 by cases; C85 by relating every codec to a type of the published interface, codec by codec; C86 by following panics through every instruction, with the invariants of the earlier properties; C87 by inverting each operation of the surroundings, and running it under each rule; C88 by following every error through every instruction, with a run for each that is reported; C89 like C87; C90 by a simulation between the manager's and Token-2022's resolution of the list, and by computing it for the example hook's list; C91 by inverting every instruction for what the accounts in the two places must be; C92, C93 by exact inversion of the codecs and the arithmetic of both sides; C105 by an invariant over histories with bump fields, and a simulation in both directions with histories without them; C106 by comparing tables, entry by entry, and from C75 and C85; C107 from a reader and a writer that are shown inverse to each other, part by part; C108 from an invariant without a ledger, by the proofs of C24 and C32 to C39. C109 by following a packet from its bytes through signature check, table lookup and dispatch to a history of calls, each of which was signed by accounts that signed the packet; what that history can do is C24, C31 and the ledger's rules. Instructions of other programs are left open there: they may do anything the surroundings of the model can, and call the two programs, with the signatures of their instruction and those of third-party derived addresses. `ed25519` and the map from keys to accounts are arbitrary. C110 by an invariant of a limiter along a history: what was taken so far and what is left are together no more than what there was at the start, the refill up to the limiter's last use and what was put back; the clock may go back in the model, and the bound does not need that it does not. C111 by summing the bound of C110 over the chains (every item that is paid and was not waiting at the start came from one of them) and setting it off against what C42 and C43 say of custody and supply; it assumes, as C110 does for payouts, that no two different messages seen in the history have the same hash. C112 by the exact effect of each instruction on the limiters: what a limiter has to give never falls by more than what is taken from it; refusals through C88. C113 by the same case analysis on a limiter with limit zero, which stays at zero whatever is put back; what the owner's call leaves through C66. C114 by the same change analysis (only `set_peer` for the chain changes its peer), and through C39 for payouts.

<!-- table -->
| id | property | status | theorems (file) |
|---|---|---|---|
| C01 | Trimming an amount is exact floor division to min(8, source decimals, destination decimals) | proved | `C01_trim_exact` (`PropsAmounts.v`) |
| C02 | Untrimming scales exactly or reports an overflow | proved | `C02_untrim_exact`, `C02_change_decimals_exact` (`PropsAmounts.v`) |
| C03 | Dust removal keeps the largest representable part and never charges more than requested | proved | `C03_remove_dust_greatest`, `C03_remove_dust_exact`, `C03_remove_dust_idempotent` (`PropsAmounts.v`) |
| C04 | A transfer between two chains never creates value and loses none when the registered decimals are right | proved | `C04_no_value_created` (`PropsAmounts.v`) |
| C05 | Equality of trimmed amounts is total | partial | `C05_equality_total_refuted`, `C05_equality_defined_iff` (`PropsAmounts.v`) |
| C06 | Wire messages survive encode/decode | proved | `C06_native_token_transfer`, `C06_manager_message`, `C06_transceiver_message`, `C06_transfer_is_lawful_payload`, `C06_empty_payload`, `C06_transceiver_info`, `C06_registration` (`PropsWire.v`) |
| C07 | Encodings follow the published wire layout | proved | `C07_transfer_layout`, `C07_transfer_layout_with_payload`, `C07_manager_message_layout`, `C07_transceiver_message_layout`, `C07_info_layout`, `C07_registration_layout` (`PropsWire.v`) |
| C08 | Decoding is total and accepts exactly the documented shape | proved | `C08_accepts_exactly`, `C08_agrees_with_encoder`, `C08_truncated_rejected`, `C08_wrong_prefix_rejected` (`PropsWire.v`) |
| C09 | Each decodable message has one encoding | partial | `C09_unique_encoding_refuted` (`PropsWire.v`) |
| C10 | Announced sizes equal written sizes | partial | `C10_transfer_size`, `C10_manager_message_size`, `C10_transceiver_message_size_gap`, `C10_info_size_gap`, `C10_registration_size_gap`, `C10_announced_sizes_refuted`, `C10_encoding_fails_iff_too_long` (`PropsWire.v`) |
| C11 | Message digests identify messages | proved | `C11_message_digest`, `C11_intent_digest` (`PropsWire.v`) |
| C12 | In-place message accessors agree with full deserialisation | proved | `C12_accessors_agree`, `C12_wrong_discriminator_rejected`, `C12_wrong_owner_rejected` (`PropsAccounts.v`) |
| C13 | Account contents survive storage | proved | `C13_storage_fits`, `C13_storage_round_trip`, `C13_kinds_not_confused`, `C13_unwritten_is_no_kind` (`PropsAccounts.v`) |
| C14 | Derived account addresses of different purposes never coincide | proved | `C14_addresses_separated`, `C14_seeds_within_limits` (`PropsAccounts.v`) |
| C15 | Bitmaps behave like sets of at most 128 transceivers | proved | `C15_get_after_set`, `C15_sequences`, `C15_out_of_range`, `C15_is_empty` (`PropsBitmap.v`) |
| C16 | Vote counting counts distinct enabled transceivers | proved | `C16_distinct_enabled`, `C16_at_most_enabled` (`PropsBitmap.v`) |
| C17 | Rate-limit capacity stays between zero and the limit and refills linearly | proved | `C17_capacity_in_range`, `C17_monotone`, `C17_full_after_a_day`, `C17_linear` (`PropsRate.v`) |
| C18 | A transfer is taken from capacity exactly when it fits | proved | `C18_consume_iff_fits` (`PropsRate.v`) |
| C19 | Throughput over any window is bounded | proved | `C19_throughput`, `C19_throughput_constant`, `C19_twice_per_day` (`PropsRate.v`) |
| C20 | Opposite flow refills by the amount and never above the limit | proved | `C20_refill_exact` (`PropsRate.v`) |
| C21 | Changing a limit preserves what has been used | partial | `C21_set_limit_exact`, `C21_change_and_back_refuted` (`PropsRate.v`) |
| C22 | Rate-limit arithmetic never overflows on any realistic clock | proved | `C22_no_panic`, `C22_clock_backwards_refused` (`PropsRate.v`) |
| C23 | A deployment has one configuration and its identity never changes | proved | `C23_one_config`, `C23_created_by_upgrade_authority`, `C23_identity_never_changes` (`PropsAdmin.v`) |
| C24 | Only the owner administers the deployment | proved | `C24_settings_change_only_by_owner` (`PropsAdmin.v`) |
| C25 | Ownership moves only by consent | proved | `C25_ownership_moves`, `C25_new_owner_consents`, `C25_offers_come_from_owner`, `C25_every_owner_was_named`, `C25_owner_can_cancel`, `C25_owner_keeps_powers` (`PropsAdmin.v`) |
| C26 | The upgrade authority follows ownership | proved | `C26_authority_follows_owner`, `C26_locked_against_upgrades`, `C26_no_second_transfer` (`PropsAdmin.v`) |
| C27 | Transceiver identities are unique and permanent | proved | `C27_unique`, `C27_ids_consecutive`, `C27_permanent`, `C27_registration`, `C27_not_twice`, `C27_not_beyond_128`, `C27_failure_changes_nothing` (`PropsAdmin.v`) |
| C28 | Pausing stops value movement and nothing else | proved | `C28_paused_blocks`, `C28_paused_keeps_value`, `C28_pause_does_not_stop_the_rest`, `C28_only_owner_pauses` (`PropsAdmin.v`) |
| C29 | A lock transfer moves exactly the dust-free amount into custody | proved | `C29_lock`, `C29_fee_refused` (`PropsOut.v`) |
| C30 | A burn transfer destroys exactly the dust-free amount | proved | `C30_burn`, `C30_fee_refused` (`PropsOut.v`) |
| C31 | A third party cannot alter a delegated transfer | proved | `C31_owner_approved`, `C31_arguments_fixed`, `C31_total` (`PropsOut.v`) |
| C32 | Outbound rate limiting delays or refuses, never loses funds | proved | `C32_limits`, `C32_refused_without_consent` (`PropsOut.v`) |
| C33 | Each outbound transfer is published at most once per transceiver and never early | proved | `C33_once`, `C33_conditions`, `C33_release_time_fixed` (`PropsOut.v`) |
| C34 | Published messages state what was deposited | proved | `C34_states_a_deposit`, `C34_one_deposit` (`PropsOut.v`) |
| C35 | Inbound messages need enough distinct enabled transceivers | proved | `C35_votes`, `C35_same_message`, `C35_threshold_is_one` (`PropsIn.v`) |
| C36 | Inbound messages come from the registered peer and are addressed to this deployment | proved | `C36_origin`, `C36_every_redemption` (`PropsIn.v`) |
| C37 | Each inbound message is paid at most once | proved | `C37_once`, `C37_custody_out`, `C37_supply_up` (`PropsIn.v`) |
| C38 | Release status only moves forward | proved | `C38_forward` (`PropsIn.v`) |
| C39 | Inbound delays are respected | proved | `C39_redeem`, `C39_delay` (`PropsIn.v`) |
| C40 | Payouts are exactly what the message says | partial | `C40_message`, `C40_unlock`, `C40_mint`, `C40_fee_refuted` (`PropsIn.v`) |
| C41 | Replays have no effect | proved | `C41_replay_fails`, `C41_no_effect` (`PropsIn.v`) |
| C42 | Custody is never drained below outstanding deposits | proved | `C42_custody`, `C42_only_payouts` (`PropsFlow.v`) |
| C43 | In burning mode supply tracks messages | proved | `C43_supply`, `C43_only_messages`, `C43_transfer_custody`, `C43_release_custody` (`PropsFlow.v`) |
| C44 | Approved inbound transfers can always be released once due | proved | `C44_unlock`, `C44_mint`, `C44_publish` (`PropsFlow.v`) |
| C45 | Wormhole receipts are authentic and unique | proved | `C45_authentic`, `C45_once`, `C45_never_changes`, `C45_receive` (`PropsIn.v`) |
| C46 | Marking an outbound transfer as released is reserved to the transceiver itself | proved | `C46_only_its_transceiver`, `C46_flag_is_publication` (`PropsOut.v`) |
| C47 | Setting a peer preserves the used inbound capacity | partial | `C47_refuted`, `C47_partial` (`PropsIn.v`) |
| C48 | Value is conserved across chains | proved | `C48_value`, `C48_custody`, `C48_backed`, `C48_not_shared`, `C48_paid_once`, `C48_in_flight` (`PropsNet.v`) |
| C49 | Relay fees follow the published formula without overflow | proved | `C49_fee`, `C49_request` (`PropsQuoter.v`) |
| C50 | A relay request never costs more than the user's limit | partial | `C50_partial`, `C50_refuted`, `C50_live` (`PropsQuoter.v`) |
| C51 | Relays are requested only for published transfers of registered deployments | proved | `C51_origin`, `C51_flag_is_published`, `C51_one_open` (`PropsQuoter.v`) |
| C52 | Quoter administration is restricted and relay money goes to the fee recipient | proved | `C52_instance`, `C52_registry`, `C52_requests`, `C52_money` (`PropsQuoter.v`) |
| C53 | Governance messages survive encode/decode and reject everything else | proved | `C53_round_trip`, `C53_accepted`, `C53_fails`, `C53_encoding` (`PropsGov.v`) |
| C54 | Governance executes each authorised instruction at most once and exactly as written | proved | `C54_authorised`, `C54_once`, `C54_effect`, `C54_live` (`PropsGov.v`) |
| C55 | Disagreeing deliveries do not help each other | proved | `C55_votes`, `C55_separate` (`PropsIn.v`) |
| C56 | Transactions that fail part-way leave nothing behind | proved | `C56_atomic`, `C56_reachable` (`PropsFlow.v`) |
| C57 | Operations of amount zero do not slow down the refill of a rate limiter | partial | `C57_rounding_loss_bounded`, `C57_starvation`, `C57_zero_operations_harmless_refuted` (`PropsRate.v`) |
| C58 | Exact charge of a relay request whose address already holds lamports | proved | `C58_charge` (`PropsQuoter.v`) |
| C59 | The quoter's owner is the upgrade authority that initialised it, for ever | proved | `C59_owner`, `C59_made`, `C59_no_assistant` (`PropsQuoter.v`) |
| C60 | The announced size of a governance message is its encoded size | partial | `C60_refuted`, `C60_partial` (`PropsGov.v`) |
| C61 | Governance hands on no signature or write permission it was not given | proved | `C61_privileges` (`PropsGov.v`) |
| C62 | Broadcasts describe the deployment | proved | `C62_info`, `C62_peer`, `C62_no_contradiction`, `C62_nothing_else` (`PropsBytes.v`) |
| C63 | Everything published can be encoded and decodes to itself | proved | `C63_transfer`, `C63_info`, `C63_peer` (`PropsBytes.v`) |
| C64 | Sharing an inbox item or a session authority takes equal bytes or a hash collision | proved | `C64_same_item`, `C64_same_session`, `C64_no_collision` (`PropsBytes.v`) |
| C65 | The canonical lookup table holds the deployment's accounts and is never taken back | partial | `C65_tables`, `C65_recorded`, `C65_append_only`, `C65_one_step`, `C65_anyone`, `C65_only_deployment_refuted` (`PropsLut.v`) |
| C66 | Administrative instructions succeed exactly when allowed and store exactly their arguments | proved | `C66_initialize`, `C66_set_paused`, `C66_set_peer`, `C66_register`, `C66_outbound_limit`, `C66_inbound_limit`, `C66_transfer_ownership`, `C66_transfer_ownership_one_step`, `C66_claim_ownership`, `C66_transceiver_peer`, `C66_receive` (`PropsEffect.v`) |
| C67 | Transfers, redemptions, releases and publications succeed exactly under their conditions and do exactly what they say | proved | `C67_transfer_lock`, `C67_transfer_burn`, `C67_redeem`, `C67_release_unlock`, `C67_release_mint`, `C67_publish`, `C67_mark`, `C67_broadcast_info`, `C67_broadcast_peer` (`PropsMove.v`) |
| C68 | The relay quoter's instructions succeed exactly under their conditions, do exactly what they say and conserve lamports | proved | `C68_initialize`, `C68_set_fee_recipient`, `C68_set_assistant`, `C68_register_chain`, `C68_register_ntt`, `C68_deregister_ntt`, `C68_update_sol_price`, `C68_update_chain_prices`, `C68_update_chain_params`, `C68_request_relay`, `C68_close_relay`, `C68_conserved` (`PropsQEffect.v`) |
| C69 | The relay fee is monotone in every price and rounds only in the payer's favour, by a bounded amount | proved | `C69_monotone`, `C69_rounding` (`PropsQEffect.v`) |
| C70 | A governance submission succeeds exactly under its conditions and does exactly the governed call | proved | `C70_submit` (`PropsGov.v`) |
| C71 | A deployment owned by governance changes only by governance messages | proved | `C71_unchanged`, `C71_message`, `C71_pause` (`PropsGoverned.v`) |
| C72 | Instruction data are decoded exactly and unambiguously | proved | `C72_dispatch`, `C72_unambiguous`, `C72_tags` (`PropsDispatch.v`) |
| C73 | Instructions touch only the accounts they are given | proved | `C73_writes`, `C73_reads`, `C73_signers`, `C73_step`, `C73_complete` (`PropsEntry.v`) |
| C74 | Calls without shared writable accounts commute | proved | `C74_commute` (`PropsEntry.v`) |
| C75 | Calls mean what the published interface says | proved | `C75_meaning`, `C75_privileges`, `C75_least`, `C75_fixed`, `C75_session`, `C75_names` (`PropsIdl.v`) |
| C76 | A recorded transfer can be delivered without anyone's signature | proved | `C76_delivery`, `C76_unsigned`, `C76_funded`, `C76_home` (`PropsDeliver.v`) |
| C77 | Supply is exactly what accounts hold, and no transfer in a hub network lacks funds | proved | `C77_supply`, `C77_total`, `C77_shares`, `C77_room`, `C77_delivery`, `C77_everywhere`, `C77_covered` (`PropsSupply.v`) |
| C78 | Transfer hooks cannot be bypassed | proved | `C78_refines`, `C78_exact`, `C78_only`, `C78_outbound`, `C78_inbound`, `C78_ledger`, `C78_no_receipt`, `C78_no_payment`, `C78_counter`, `C78_one_mint`, `C78_accepts` (`PropsHook.v`) |
| C79 | Payers pay exactly the missing rent and the bridge's fee, and accounts of the programs keep their lamports | proved | `C79_refines`, `C79_bill`, `C79_exact`, `C79_transfer_cost`, `C79_free`, `C79_payers`, `C79_moves`, `C79_kept`, `C79_custody`, `C79_exempt`, `C79_prefund`, `C79_conserved` (`PropsLamport.v`) |
| C80 | Symbolic addresses stand for the bytes the code derives, and are told apart by them | proved | `C80_found`, `C80_manager`, `C80_transceiver`, `C80_associated`, `C80_lookup_table`, `C80_regular`, `C80_distinct`, `C80_keys`, `C80_messages`, `C80_no_key` (`PropsDerive.v`) |
| C81 | The quoter touches only the accounts it is given | proved | `C81_writes`, `C81_reads`, `C81_signers`, `C81_step`, `C81_complete`, `C81_commute`, `C81_beside` (`PropsQEntry.v`) |
| C82 | Calls of the quoter mean what its published interface says | proved | `C82_meaning`, `C82_privileges`, `C82_least`, `C82_settled`, `C82_names`, `C82_assistant` (`PropsQEntry.v`) |
| C83 | Governance messages to the manager mean what they say, and suffice | proved | `C83_meaning`, `C83_linked`, `C83_settings`, `C83_able`, `C83_anyone` (`PropsGovCall.v`) |
| C84 | Governance action bytes round trip | partial | `C84_read`, `C84_refuted`, `C84_partial` (`PropsGov.v`) |
| C85 | The published types describe accounts and instruction data | proved | `C85_accounts`, `C85_written`, `C85_which`, `C85_kinds`, `C85_calls`, `C85_faithful` (`PropsTypes.v`) |
| C86 | Where the programs panic | proved | `C86_manager`, `C86_authority`, `C86_forward`, `C86_quoter`, `C86_governance`, `C86_hook` (`PropsPanic.v`) |
| C87 | The surroundings of the programs can do exactly what the platform allows | proved | `C87_rules`, `C87_only`, `C87_signers` (`PropsWorld.v`) |
| C88 | Reported error numbers tell the truth and are the published ones | proved | `C88_manager`, `C88_quoter`, `C88_governance`, `C88_numbers`, `C88_distinct`, `C88_manager_reports`, `C88_quoter_reports` (`PropsErrors.v`) |
| C89 | What surrounds lookup tables and quoter follows exactly the platform's rules | proved | `C89_tables`, `C89_only`, `C89_can` (`PropsPlatform.v`) |
| C90 | A hook's extra accounts are listed, found and passed on | proved | `C90_list`, `C90_seeds`, `C90_round`, `C90_privileges`, `C90_passes_on`, `C90_exact` (`PropsResolve.v`) |
| C91 | No account is passed twice where its data matter | proved | `C91_one_kind`, `C91_distinct`, `C91_exception`, `C91_rewritten`, `C91_quoter` (`PropsAlias.v`) |
| C92 | Solana and EVM read each other's messages alike | proved | `C92_same_bytes`, `C92_to_evm`, `C92_from_evm`, `C92_digest`, `C92_both`, `C92_published_transfer`, `C92_published_info`, `C92_published_peer` (`PropsEvm.v`) |
| C93 | Amounts keep their value between Solana and EVM | proved | `C93_trim`, `C93_untrim`, `C93_from_evm`, `C93_from_evm_iff`, `C93_to_evm` (`PropsEvm.v`) |
| C94 | The client library and the programs mean the same bytes and addresses | proved | `C94_reads`, `C94_writes`, `C94_from_programs`, `C94_both`, `C94_inbox_item`, `C94_session`, `C94_addresses`, `C94_published_transfer`, `C94_published_info`, `C94_published_peer`, `C94_no_program_data`, `C94_program_data`, `C94_program_data_written` (`PropsClient.v`) |
| C95 | What the programs return is what the interface declares | proved | `C95_declared`, `C95_mark`, `C95_version`, `C95_generation` (`PropsReturned.v`) |
| C96 | The client library's instructions are what the programs take them for | proved | `C96_setup`, `C96_transfer`, `C96_release_inbound`, `C96_messages`, `C96_manager`, `C96_transceiver`, `C96_ownership`, `C96_signers` (`PropsBuilder.v`) |
| C97 | The client library's transactions do what they are for | proved | `C97_transfer`, `C97_redeem`, `C97_redeem_needs`, `C97_complete`, `C97_register`, `C97_set_peer` (`PropsTx.v`) |
| C98 | The client library's instructions for the quoter are what the quoter takes them for | proved | `C98_staff`, `C98_owner`, `C98_request`, `C98_request_wrong`, `C98_numbers`, `C98_never`, `C98_initialize`, `C98_signers` (`PropsQBuilder.v`) |
| C99 | The client library's prices cover what the quoter charges | proved | `C99_enabled`, `C99_paused`, `C99_yes`, `C99_requested`, `C99_quote`, `C99_covers`, `C99_covers_now`, `C99_cost`, `C99_cost_of_quote`, `C99_cost_bound` (`PropsQBuilder.v`) |
| C100 | The client library's automatic transfer does what it is for | partial | `C100_transfer`, `C100_no_dropoff`, `C100_dropoff`, `C100_dropoff_refuted` (`PropsQBuilder.v`) |
| C101 | Compressing a transaction with the lookup table changes nothing about it | proved | `C101_same`, `C101_accepted`, `C101_compiles`, `C101_static`, `C101_size`, `C101_transfer`, `C101_redeem` (`PropsCompress.v`) |
| C102 | The client library's upkeep of the lookup table makes the table complete | proved | `C102_needed`, `C102_wanted`, `C102_only_bridge`, `C102_heals`, `C102_stays` (`PropsCompress.v`) |
| C103 | What the client library reads is what the chain holds | partial | `C103_item`, `C103_nothing`, `C103_dusted`, `C103_track`, `C103_resumed`, `C103_forward`, `C103_peer`, `C103_transceiver_peer`, `C103_outbox`, `C103_addresses`, `C103_duration`, `C103_config`, `C103_fixed`, `C103_capacity_below`, `C103_quote`, `C103_no_warning`, `C103_current_refuted` (`PropsReads.v`) |
| C104 | A configuration that the client library holds on to stays usable | partial | `C104_same`, `C104_transfer`, `C104_redeem`, `C104_complete`, `C104_kept`, `C104_refuses`, `C104_follows_refuted` (`PropsReads.v`) |
| C105 | Stored bumps are canonical, and checks with them accept only the canonical account | proved | `C105_canonical`, `C105_pinned`, `C105_complete`, `C105_histories` (`PropsBump.v`) |
| C106 | Clients that hold an interface of an earlier generation are understood or refused | proved | `C106_accounts`, `C106_data`, `C106_which`, `C106_lists`, `C106_quoter`, `C106_transfers`, `C106_mint` (`PropsOld.v`) |
| C107 | The bytes of a transaction the library sends are read as that transaction, and no other bytes are | proved | `C107_sent`, `C107_loaded`, `C107_read`, `C107_one`, `C107_transfer`, `C107_redeem` (`PropsTxWire.v`) |
| C108 | Whatever a token's extensions do to balances and mints, who may change what, votes, single payout, limits and messages stay as they are | proved | `C108_more`, `C108_settings`, `C108_identity`, `C108_votes`, `C108_origin`, `C108_once`, `C108_forward`, `C108_due`, `C108_redeem`, `C108_limits`, `C108_published_once`, `C108_published`, `C108_one_deposit`, `C108_flags`, `C108_custody`, `C108_decimals` (`PropsWild.v`) |
| C109 | From the bytes of packets to the state: nothing of the owner's, of a token holder's or of the deployer's changes without a signature of theirs over the bytes of a packet, and what the library sends is run as specified | proved | `C109_reachable`, `C109_history`, `C109_settings`, `C109_tokens`, `C109_deployment`, `C109_transfer`, `C109_redeem` (`PropsSubmit.v`) |
| C110 | Over any history the limiters bound what is let through at once: what a chain had to give plus one limit per day plus the opposite flow; a peer chain that goes wrong cannot have more paid within a day | proved | `C110_inbound`, `C110_outbound`, `C110_paid`, `C110_two_limits`, `C110_paused`, `C110_sent`, `C110_sent_paused`, `C110_wild_inbound`, `C110_wild_outbound`, `C110_wild_paused`, `C110_wild_paid`, `C110_wild_sent`, `C110_wild_sent_paused`, `C110_packets` (`PropsSubmitWindow.v`, `PropsWildWindow.v`, `PropsWindow.v`) |
| C111 | Within a day custody cannot lose, nor the supply gain, more than what was already waiting plus what the limiters of the peer chains give; after a pause that is all there ever is | proved | `C111_custody`, `C111_supply`, `C111_custody_paused`, `C111_supply_paused`, `C111_packets` (`PropsDrain.v`, `PropsSubmitDrain.v`) |
| C112 | Nobody's transfer is delayed or refused for the limit unless others have used up the limiter by as much, and traffic with one chain does not delay that with another | partial | `C112_apart`, `C112_schedule`, `C112_inbound`, `C112_outbound`, `C112_refused`, `C112_outbound_apart_refuted`, `C112_wild_apart`, `C112_wild_schedule`, `C112_wild_inbound`, `C112_wild_outbound` (`PropsDelay.v`, `PropsWildDelay.v`) |
| C113 | A rate limit of zero is a brake of one day | proved | `C113_set`, `C113_set_outbound`, `C113_inbound`, `C113_due`, `C113_paid`, `C113_outbound`, `C113_sent`, `C113_wild_inbound`, `C113_wild_due`, `C113_wild_paid`, `C113_wild_outbound`, `C113_wild_sent` (`PropsBrake.v`, `PropsWildBrake.v`) |
| C114 | Replacing the manager of a chain cuts off the old one, except for what was scheduled before | proved | `C114_set`, `C114_in`, `C114_refused`, `C114_paid`, `C114_out`, `C114_emitter` (`PropsCut.v`) |
<!-- end table -->

"partial" means that the property as stated is false of the code, or has a part that is: the false part is refuted by a
theorem with a witness (section 4), the true part is proved.

## 4. Findings

Statements that are false of the code (each with a Coq witness):

* **C05** (`C05_equality_total_refuted`): `PartialEq for TrimmedAmount` asserts equal decimals, so comparing amounts of different decimals
  panics instead of answering. The exact domain is proved.
* **C09** (`C09_unique_encoding_refuted`): the length fields inside a message are read and ignored; one message has many accepted encodings.
* **C10** (`C10_announced_sizes_refuted`): `written_size` of `TransceiverMessage`, `WormholeTransceiverInfo` and
  `WormholeTransceiverRegistration` is smaller than what is written; exact shortfalls are proved. Sizes that go on the wire are right.
* **C21** (second half, `C21_change_and_back_refuted`): lowering a limit below what has been used and raising it again
  forgets the usage: the capacity is full again.
* **C40** (`C40_fee_refuted`): for a mint with a transfer fee the recipient gets the message's amount minus the fee.
* **C47** (`C47_refuted`): `set_peer` makes a fresh inbound limiter with full capacity, whatever had been used.
* **C50** (`C50_refuted`): if lamports were sent to the address of the relay request beforehand, the payer pays less than `max(fee, rent)`.
* **C57** (`C57_zero_operations_harmless_refuted`): for limits below 86400 base units, operations of amount zero stop the refill (rounding down of the elapsed part).
* **C60** (`C60_refuted`): `GovernanceMessage::written_size` omits the 32 bytes of the governance program id. Nothing uses the value.
* **C84** (`C84_refuted`): writing `GovernanceAction::Undefined` writes no byte, though the announced size is 1 and the reader expects a 0. The repository never writes this action.
* **C100** (`C100_dropoff_refuted`): the automatic transfer of the sdk does not ask for the drop-off that was quoted; see below.
* **C103** (`C103_current_refuted`): the sdk's current inbound and outbound capacities are those at the last transfer; see below.
* **C104** (`C104_follows_refuted`): the sdk reads the configuration once and never again; see below.
* **C112** (last sentence, `C112_outbound_apart_refuted`): the outbound limiter is shared by all chains, so a transfer to one chain can delay a transfer to another. Inbound limiters are kept per chain and do not influence each other (`C112_apart`).
* **C65** (`C65_only_deployment_refuted`): `initialize_lut` can be called by anyone and takes the core bridge's fee collector and sequence
  accounts unchecked (it never calls the core bridge), so anyone can record a table with arbitrary addresses in those places. The
  comment in `luts.rs` that no junk can be populated is wrong for them. What the table can contain is proved exactly.

Further observations that are proved:

* **C35** (`C35_threshold_is_one`): no instruction changes the threshold, so it is 1 in every deployment; with two registered
  transceivers one delivery suffices.
* **C77** (`C77_decimals`): the program accepts, and locks or burns, an amount that cannot be expressed in 64 bits of the destination's token
  (which has more decimals); such a transfer can never be redeemed. With a destination of no more decimals than the hub's token this cannot happen (`C77_everywhere`).
* **C78** (`C78_one_mint`, `C78_dummy`): the repository's dummy transfer hook keeps one counter whose address does not depend on the mint and creates it in every
  initialisation, so only the first mint can ever be initialised, by anyone; transfers of all other mints naming the hook fail. Its
  function may be called by anyone, so the counter is not the number of transfers. (The file says it is not meant for production.)
* **C86** (`C86_authority`): `initialize` in burning mode panics (`mint_authority.unwrap()`) for a mint without authority instead of reporting
  `InvalidMintAuthority`. A quoter request with a large dropoff panics instead of reporting `ScalingOverflow` if the chain's maximum allows it. Neither changes anything.
* **C88** (`C88_manager_reports`, `C88_quoter_reports`): five published errors of the manager are never reported (`InvalidRecipientAddress`,
  `TransferNotApproved`, `DisabledTransceiver`, `InvalidDeployer`, `ZeroThreshold`: a threshold is 1 and registered transceivers are
  enabled for ever), nor the quoter's `DivByZero`. The quoter reports 6022, the manager's `BitmapIndexOutOfBounds`, which its interface does not list, for a deployment
  registered with an index of 128 or more; the stand-alone transceiver's interface lists none of the manager's numbers it reports. The quoter's
  `OutboxItemNotReleased` carries the text of `RelayingToChainDisabled` (`C88_text`). In burning mode a transfer fee is reported as
  `BadAmountAfterBurn` only if custody already holds tokens, otherwise as the token program's insufficient funds.
* **C90** (`C90_balance`): the hypothesis about seeds is needed. For a hook that derives an extra account from the balance of a token account the libraries resolve
  the list before the tokens move in the manager and after it in Token-2022, and the transfer fails even if the accounts of both balances are passed.
* **C91** (`C91_exception`, `C91_custody`): a message from another chain may name the token authority as recipient. Its release then passes the custody account twice and
  moves the tokens from custody to itself: the item is used up and the tokens stay locked for ever.
* **C108** (`C108_custody`, `C108_decimals`): no instruction looks at a mint's extensions. With a permanent delegate custody can be emptied while deposits are
  outstanding (C42 rests on there being none). With a mint close authority a mint without supply can be closed and made anew with other decimals; an item redeemed before is then
  paid the number of units computed with the old decimals, and limits keep their numbers.
* **C113** (`C113_case`): a limit of zero delays, it does not stop: what it holds back is paid a day later unless the owner has paused by then or, before the message is redeemed,
  replaced the peer.
* **C114** (`C114_emitter`, `C114_case`): the peer of a transceiver is created once and no instruction changes it, so a wrong or compromised emitter cannot be replaced. Its
  messages state their source manager themselves, so replacing the manager's peer shuts out the old manager and not the emitter. It does not stop what has been redeemed, and makes a full limiter (C47).
* **C92** (`C92_from_evm`, `C92_case`): the length fields are ignored on Solana, so a transfer with an additional payload, which only a modified manager on an EVM chain
  sends, is taken as a plain transfer. The additional payload is dropped without an error, and the digest recorded differs from the sender's.
* **C93** (`C93_to_evm`, `C93_case`): the EVM side trims a received amount again, to eight decimals. A Solana token with fewer than eight decimals can therefore be sent
  in amounts that the EVM side cannot pay out: with 5 decimals here and 8 or more there, all amounts above some 184467440737 tokens. The tokens are taken on Solana and the message reverts for ever.
* **C94** (`C94_both`, `C94_inbox_item`, `C94_case`): the client keeps an additional payload, which Solana drops. For a message with one, its `messageDigest` differs
  from the digest the manager records and it asks for an inbox item that does not exist. The client also takes additional payloads whose length field runs past the
  end, which the EVM side refuses.
* **C94** (`C94_no_program_data`): the client's `programDataLayout` starts at the slot and leaves out the four bytes of the loader's enum before it. Program data never
  fit it, so `createInitalizeInstruction` of the quoter's client always throws.
* **C96** (`C96_ownership`): `createTransferOwnershipInstruction` names two of the six accounts and gives Anchor no way to find the others, so it always throws; so does the
  `setOwner` that uses it. `createTransferBurnInstruction`, unlike the one for locking, does not look whether the manager is paused; the program does.
* **C97** (`C97_redeem_needs`, `C97_case`): the sdk's `redeem` creates the payer's associated token account, not the recipient's. If the recipient, who need not be the
  payer, has none, the transaction fails. It also fails as a whole if anybody has let the transceiver receive the message before, since it contains that instruction
  again; it can then only be redeemed by other means. Neither loses anything.
* **C97** (`C97_transfer`, `sent`): the sdk approves the full amount and the manager takes the dust-free part, so the dust stays approved to the session authority, and
  an approval that existed before is replaced. By C31 the rest can be taken only by a transfer with the same arguments.
* **C98** (`C98_never`): `createCloseRelayInstruction` leaves out the fee recipient and therefore always throws, and so does `createInitalizeInstruction` (C94). The latter's
  check that the quoter is initialized already looks at a promise that is not awaited. `U64.to` refuses numbers from 2^53 on (`C98_numbers`), so its check against 64 bits never fires.
* **C99** (`C99_paused`, `C99_case`): a paused chain has the base price 2^64-1, which the library cannot convert to a number. So `isRelayEnabled` and the sdk's
  `isRelayingAvailable` throw for every paused chain and for every freshly registered one, and answer no only for unknown chains. The check in the sdk's
  `quoteDeliveryPrice` looks at a promise that is not awaited and is never effective.
* **C100** (`C100_dropoff_refuted`, `C100_dropoff`): the sdk's automatic transfer converts the drop-off from wei to gwei and passes it to `createRequestRelayInstruction`,
  which takes it for ether and converts it again. The quoter gets the number of wei as a number of gwei, 10^9 times what was quoted. It refuses the
  request unless the maximum in gwei is at least that number, that is, for all drop-offs that matter; from 2^53 wei (0.009 ether) on the library throws.
* **C103** (`C103_current_refuted`, `C103_capacity_below`): `getCurrentOutboundCapacity` and `getCurrentInboundCapacity` return `capacityAtLastTx` without the refill since. It is a
  lower bound, so a quote may warn of a delay though none would happen, for ever after one big transfer; it never fails to warn.
* **C103** (`C103_dusted`): the sdk's reads of an inbox item catch only a missing account. Anybody who sends lamports to the address of an item that is still to come (known from
  the message) makes them and `track` throw until the item is created. Redemption itself is not affected (C79).
* **C103** (`C103_addresses`): `verifyAddresses` compares with the emitter of the transceiver in the manager, so it reports a mismatch for every stand-alone transceiver.
* **C104** (`C104_follows_refuted`, `C104_refuses`): the sdk caches the configuration for the life of the object. One read while the manager was paused refuses transfers, redemptions and completions for
  ever, and the owner reported is that of the first read. The reverse is harmless: everything else used does not change, and the chain checks the pause (`C104_transfer`).
* **C44**: besides the stated conditions, a release needs 64-bit room in the token accounts and in the supply.

## 5. Trusted base

* Coq 8.16.1's kernel (and `vm_compute`, used in examples and in a few proofs about constants), and the `coqchk` checker.
* `Print Assumptions` under every property theorem answers "Closed under the global context": no axiom is used. `coqchk`
  lists seven entries `Coq.ssr.ssrunder.Under_rel.*` for the loaded standard library; they are opaque module
  components of the standard library's ssreflect support, which no theorem here depends on.
* The reading of the Rust code recorded in the comments of the model files.
* Platform behaviour: the Solana runtime (atomic transactions, ownership and signer rules, no re-entry other than self-recursion),
  Anchor 0.29 code generation (`init`, `init_if_needed`, `has_one`, `seeds`, `constraint`, discriminators), Borsh, SPL token
  and Token-2022 semantics as written in `Chain.v`, the transfer hook interface and account resolution libraries as written in `Resolve.v`, the upgradeable loader, the wormhole core bridge (an account of the
  bridge holding a posted message was signed by the guardians; one message account, one post), wormhole-io 0.1.3 (a
  boolean is one byte 0 or 1).

## 6. Not modelled

Transaction fees, changes of rent, what third parties pay for their own accounts, and the rent of the replay account of governance (other lamports: C50, C58, C68 for
the quoter, C79 for manager and transceivers); bumps of derived addresses outside `Bump.v` (stored as 0 there; C105 shows that they decide nothing but the
address; the bump in governance's replay account is never read); order of Anchor's constraint checks (only whether all hold; by C88 a reported error is true, not which of several true ones it is); account reallocation and
size limits beyond C13; compute limits; program upgrades; Token-2022 extensions other than transfer fees and transfer
hooks (permanent delegate, mint close authority, confidential transfers, close authority of token accounts, interest), except that by C108 much does not depend on them; what a hook does to accounts other than its own;
freezing except as a refusal; withheld transfer fees per account (they are collected at the mint, from where the model lets anybody withdraw them); log
output; the IDL other than as in C75, C82, C85, C88, C95 and C106, and the programs of earlier generations themselves; the Sui implementation, the TypeScript library other than as in C94 to C104 and C107 (what is left out: the waiting for transactions), and the EVM side other than as in C92 and C93. Test-only and mock programs other than the dummy
transfer hook are not modelled.

## Seeded faults

`seeded/LOG.jsonl` holds one line per edited copy of the model. How to read it:

- A proof that fails is admitted and the build goes on. `theorems_failed` lists every property theorem that fails itself or rests on
  an admitted lemma. It is an over-approximation: one admitted lemma used everywhere puts up to about a hundred theorems in the list.
  A theorem in this list has lost its proof; that does not show that its statement is false of the edited model.
- `first_failures` lists the lemmas whose own proof fails, and is the more telling field.
- `theorems_tightened` is filled only where a theorem was added or strengthened because of that attempt. The attempts `m1`–`m60` ran
  against a model that already had C66 and C67, so they give no comparison of before and after and name none.
- `note` marks edits that are equivalent or masked. "Expected" means argued by hand and not proved.
