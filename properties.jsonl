{"id": "C01", "title": "Trimming an amount is exact floor division to min(8, source decimals, destination decimals)", "statement": "Trimming an amount from `from` decimals towards `to` decimals yields exactly floor(amount / 10^(from-d)) tagged with d = min(8, from, to); it fails (with the exponent-overflow error) exactly when from-d >= 20 and never fails, wraps or panics otherwise.", "quantifier": "every u64 amount and every pair of u8 decimals", "why_tests_cant": "2^80 input combinations; the failing region and rounding edge depend on all three inputs.", "anchors": ["solana/modules/ntt-messages/src/trimmed_amount.rs: TrimmedAmount::trim, TrimmedAmount::scale"]}
{"id": "C02", "title": "Untrimming scales exactly or reports an overflow", "statement": "Scaling a trimmed amount to a target number of decimals multiplies by the exact power of ten when the target is larger and floor-divides when smaller. It returns an error exactly when the power of ten does not fit u64 or the product does not fit u64; there is never silent wrap-around.", "quantifier": "every trimmed amount (u64 amount, u8 decimals) and every target u8 decimals", "why_tests_cant": "The overflow boundary is a hyperbola through a 2^80-point space; sampling cannot show the error is raised exactly on the far side.", "anchors": ["solana/modules/ntt-messages/src/trimmed_amount.rs: TrimmedAmount::untrim, TrimmedAmount::change_decimals, TrimmedAmount::scale"]}
{"id": "C03", "title": "Dust removal keeps the largest representable part and never charges more than requested", "statement": "After dust removal the amount charged is the largest multiple of 10^(from-d) not exceeding the requested amount (d = min(8, from, to)); it equals the untrimmed value of the trimmed amount put on the wire, the discarded dust is smaller than one wire unit, and removing dust twice changes nothing.", "quantifier": "every u64 amount and every pair of u8 decimals for which trimming succeeds", "why_tests_cant": "Needs the identity between the charged amount and the wire amount for all amounts, not for chosen amounts.", "anchors": ["solana/modules/ntt-messages/src/trimmed_amount.rs: TrimmedAmount::remove_dust", "solana/programs/example-native-token-transfers/src/instructions/transfer.rs: transfer_burn, transfer_lock"]}
{"id": "C04", "title": "A transfer between two chains never creates value and loses none when the registered decimals are right", "statement": "If an amount is dust-removed and trimmed on a source chain and untrimmed on a destination chain, the destination value (amount / 10^decimals) never exceeds the source value. When the destination token has at least as many decimals as the wire amount, the two values are equal.", "quantifier": "every amount, every source decimals, every registered peer decimals and every actual destination decimals", "why_tests_cant": "Four independent inputs including a misregistered peer; tests use one pair of decimals.", "anchors": ["solana/modules/ntt-messages/src/trimmed_amount.rs: remove_dust, untrim", "solana/programs/example-native-token-transfers/src/instructions/transfer.rs", "solana/programs/example-native-token-transfers/src/instructions/redeem.rs: redeem"]}
{"id": "C05", "title": "Equality of trimmed amounts is total", "statement": "Comparing two trimmed amounts for equality always returns a boolean.", "quantifier": "every pair of trimmed amounts", "why_tests_cant": "Tests compare amounts of equal decimals only; the comparison of mixed decimals is an input class they omit.", "anchors": ["solana/modules/ntt-messages/src/trimmed_amount.rs: impl PartialEq for TrimmedAmount"]}
{"id": "C06", "title": "Wire messages survive encode/decode", "statement": "Every native-token-transfer, manager message, transceiver message, transceiver-info and registration message that can be encoded decodes back to itself, for any additional payload type that itself round-trips, and the decoder stops exactly at the end of the encoding so that any trailing bytes are returned untouched.", "quantifier": "every message value, every payload type with a lawful codec, every trailing byte string", "why_tests_cant": "Unbounded message space and an open-ended set of payload types; the test vectors are five messages.", "anchors": ["solana/modules/ntt-messages/src/ntt.rs", "solana/modules/ntt-messages/src/ntt_manager.rs", "solana/modules/ntt-messages/src/transceiver.rs", "solana/modules/ntt-messages/src/transceivers/wormhole.rs", "solana/modules/ntt-messages/src/mode.rs", "solana/modules/ntt-messages/src/chain_id.rs"]}
{"id": "C07", "title": "Encodings follow the published wire layout", "statement": "The encoded bytes are exactly the layout in the protocol documents: the four-byte prefixes, fixed offsets of each field, big-endian integers, u16 length prefixes equal to the number of bytes that follow, so that an independent implementation that reads fields by offset obtains every field.", "quantifier": "every encodable message", "why_tests_cant": "Interoperability with other chains is a claim about all messages, not about the stored hex vectors.", "anchors": ["solana/modules/ntt-messages/src/ntt.rs: Writeable for NativeTokenTransfer", "solana/modules/ntt-messages/src/ntt_manager.rs: Writeable for NttManagerMessage", "solana/modules/ntt-messages/src/transceiver.rs: Writeable for TransceiverMessage", "docs/NttManager.md", "docs/Transceiver.md"]}
{"id": "C08", "title": "Decoding is total and accepts exactly the documented shape", "statement": "The decoder of a transceiver message never reads out of bounds: on any byte string it either rejects or returns a message, and it accepts exactly the strings that equal an encoding of that message up to the length-prefix fields it ignores, followed by arbitrary trailing bytes. In particular wrong prefixes and truncated inputs are always rejected.", "quantifier": "every byte string", "why_tests_cant": "Fuzzing samples byte strings; exact characterisation of the accepted set needs all of them.", "anchors": ["solana/modules/ntt-messages/src/transceiver.rs: Readable for TransceiverMessage", "solana/modules/ntt-messages/src/ntt_manager.rs: Readable", "solana/modules/ntt-messages/src/ntt.rs: Readable"]}
{"id": "C09", "title": "Each decodable message has one encoding", "statement": "Two different byte strings (without trailing data) never decode to the same transceiver message.", "quantifier": "every pair of byte strings", "why_tests_cant": "A universally quantified statement over pairs of inputs; round-trip tests only go from values to bytes.", "anchors": ["solana/modules/ntt-messages/src/transceiver.rs: Readable for TransceiverMessage", "solana/modules/ntt-messages/src/ntt_manager.rs: payload_len", "solana/modules/ntt-messages/src/ntt.rs: additional payload length"]}
{"id": "C10", "title": "Announced sizes equal written sizes", "statement": "For every message type the size announced before writing is the number of bytes written, and encoding panics only when a nested payload is longer than 65535 bytes.", "quantifier": "every message value", "why_tests_cant": "The announced size feeds the on-wire length prefix; a mismatch appears only for particular message shapes.", "anchors": ["solana/modules/ntt-messages/src/transceiver.rs: written_size", "solana/modules/ntt-messages/src/ntt_manager.rs: written_size", "solana/modules/ntt-messages/src/ntt.rs: written_size", "solana/modules/ntt-messages/src/transceivers/wormhole.rs: SIZE", "solana/programs/wormhole-governance/src/instructions/governance.rs: written_size"]}
{"id": "C11", "title": "Message digests identify messages", "statement": "The byte string hashed to identify an inbound message determines the source chain and every field of the message (id, sender, amount, decimals, token, recipient, destination chain); likewise the string hashed for a transfer intent determines all four transfer arguments. So under a collision-free hash two different messages (or intents) never share a digest.", "quantifier": "every pair of (chain, message) and every pair of transfer arguments", "why_tests_cant": "Ambiguous concatenation shows only on adversarially chosen pairs.", "anchors": ["solana/modules/ntt-messages/src/ntt_manager.rs: NttManagerMessage::keccak256", "solana/programs/example-native-token-transfers/src/instructions/transfer.rs: TransferArgs::keccak256"]}
{"id": "C12", "title": "In-place message accessors agree with full deserialisation", "statement": "For any account data that deserialises as a validated transceiver message, the in-place accessors (source chain, source manager, recipient manager, payload) used to authorise a redeem return exactly the fields of the deserialised value. An account with a wrong owner or a wrong discriminator is rejected.", "quantifier": "every account data byte string, including padding after the message", "why_tests_cant": "Offset arithmetic over attacker-written account bytes.", "anchors": ["solana/programs/example-native-token-transfers/src/messages.rs: ValidatedTransceiverMessage", "solana/modules/ntt-messages/src/transceiver.rs: TransceiverMessageDataBytes"]}
{"id": "C13", "title": "Account contents survive storage", "statement": "Every account record (configuration, peers, rate limits, inbox and outbox items, registered transceivers, validated messages) serialises into the space allocated for it and reads back unchanged whatever the padding; records of different kinds are never confused because their discriminators differ.", "quantifier": "every record value within its field ranges", "why_tests_cant": "The allocation size must cover the largest value of every field.", "anchors": ["solana/programs/example-native-token-transfers/src/config.rs", "solana/programs/example-native-token-transfers/src/peer.rs", "solana/programs/example-native-token-transfers/src/queue/inbox.rs", "solana/programs/example-native-token-transfers/src/queue/outbox.rs", "solana/programs/example-native-token-transfers/src/queue/rate_limit.rs", "solana/programs/example-native-token-transfers/src/registered_transceiver.rs", "solana/programs/example-native-token-transfers/src/messages.rs"]}
{"id": "C14", "title": "Derived account addresses of different purposes never coincide", "statement": "The seed strings from which the programs derive addresses are pairwise different for different purposes and different parameters (chains, message ids, outbox items, transceivers, owners and intents), although seeds are concatenated without separators.", "quantifier": "every pair of account purposes and every parameter value", "why_tests_cant": "Aliasing would need particular parameters; the parameter space is 2^512.", "anchors": ["solana/programs/example-native-token-transfers/src/lib.rs: TOKEN_AUTHORITY_SEED, SESSION_AUTHORITY_SEED", "solana/programs/example-native-token-transfers/src/config.rs", "solana/programs/example-native-token-transfers/src/peer.rs", "solana/programs/example-native-token-transfers/src/queue/inbox.rs", "solana/programs/example-native-token-transfers/src/queue/outbox.rs", "solana/programs/example-native-token-transfers/src/messages.rs", "solana/programs/example-native-token-transfers/src/transceivers/wormhole/accounts.rs"]}
{"id": "C15", "title": "Bitmaps behave like sets of at most 128 transceivers", "statement": "Setting or clearing one index changes that index only, reading returns the last value set, indices of 128 or more are rejected with an error and no change, and nothing panics.", "quantifier": "every bitmap and every u8 index, every sequence of sets", "why_tests_cant": "2^128 bitmaps.", "anchors": ["solana/programs/example-native-token-transfers/src/bitmap.rs: Bitmap"]}
{"id": "C16", "title": "Vote counting counts distinct enabled transceivers", "statement": "The number of votes of an inbound message is the number of transceivers that have voted and are enabled: each transceiver counts once however often it votes, disabled ones do not count, and the count never exceeds the number of enabled transceivers.", "quantifier": "every sequence of votes and every enabled set", "why_tests_cant": "Quantifies over subsets of 128 transceivers and over vote orders.", "anchors": ["solana/programs/example-native-token-transfers/src/bitmap.rs: count_enabled_votes", "solana/programs/example-native-token-transfers/src/instructions/redeem.rs: redeem"]}
{"id": "C17", "title": "Rate-limit capacity stays between zero and the limit and refills linearly", "statement": "At any time the available capacity is at least zero and at most the configured limit, never decreases by waiting, and equals the limit once 24 hours have passed since the last operation.", "quantifier": "every limit, every history of consumptions, refills and limit changes, every later time", "why_tests_cant": "Histories and times are unbounded.", "anchors": ["solana/programs/example-native-token-transfers/src/queue/rate_limit.rs: RateLimitState::capacity_at"]}
{"id": "C18", "title": "A transfer is taken from capacity exactly when it fits", "statement": "A consumption of an amount succeeds immediately exactly when the amount is at most the capacity available now, then capacity drops by exactly that amount; otherwise it is delayed by exactly 24 hours and the limiter is left unchanged.", "quantifier": "every limiter state, amount and time", "why_tests_cant": "Exactness at the boundary for every limiter state.", "anchors": ["solana/programs/example-native-token-transfers/src/queue/rate_limit.rs: consume_or_delay"]}
{"id": "C19", "title": "Throughput over any window is bounded", "statement": "Over any sequence of operations between two times, the total amount consumed immediately is at most the capacity at the start, plus limit x elapsed / 24h for the limits in force, plus the amounts refilled by opposite flow, plus limit increases. With a constant limit and no opposite flow, at most twice the limit leaves in any 24-hour window.", "quantifier": "every sequence of operations at every non-decreasing sequence of times", "why_tests_cant": "A bound over all schedules, including ones that split amounts to exploit rounding.", "anchors": ["solana/programs/example-native-token-transfers/src/queue/rate_limit.rs: RateLimitState"]}
{"id": "C20", "title": "Opposite flow refills by the amount and never above the limit", "statement": "Refilling by an amount raises the current capacity by exactly that amount, capped at the limit, including when the sum exceeds u64.", "quantifier": "every limiter state, amount and time", "why_tests_cant": "Saturation corner cases.", "anchors": ["solana/programs/example-native-token-transfers/src/queue/rate_limit.rs: refill"]}
{"id": "C21", "title": "Changing a limit preserves what has been used", "statement": "Raising or lowering the limit shifts the current capacity by the same difference, saturating at zero and at the new limit; consequently changing the limit and changing it back leaves the capacity as it was.", "quantifier": "every limiter state, every pair of limits, every time", "why_tests_cant": "The second half fails only for limiter states tests do not build.", "anchors": ["solana/programs/example-native-token-transfers/src/queue/rate_limit.rs: set_limit", "solana/programs/example-native-token-transfers/src/instructions/admin.rs: set_outbound_limit, set_inbound_limit"]}
{"id": "C22", "title": "Rate-limit arithmetic never overflows on any realistic clock", "statement": "With timestamps between the last operation and 2^63 - 86401 seconds, no limiter operation overflows or panics, and a clock earlier than the last operation is always refused.", "quantifier": "every limiter state with a non-negative last timestamp and every time", "why_tests_cant": "Extreme u64 limits and times.", "anchors": ["solana/programs/example-native-token-transfers/src/queue/rate_limit.rs"]}
{"id": "C23", "title": "A deployment has one configuration and its identity never changes", "statement": "In every history there is at most one configuration account, created once by the program's upgrade authority, and mint, token program, mode, chain id, custody and threshold stay as initialised forever.", "quantifier": "every history of instructions by any set of signers", "why_tests_cant": "Immutability is a statement about all histories.", "anchors": ["solana/programs/example-native-token-transfers/src/instructions/initialize.rs", "solana/programs/example-native-token-transfers/src/config.rs", "solana/programs/example-native-token-transfers/src/instructions/admin.rs"]}
{"id": "C24", "title": "Only the owner administers the deployment", "statement": "If the pause flag, a peer, a limit setting, the transceiver registry, the enabled set, the owner or pending owner, or a wormhole peer differs after an instruction, then that instruction was signed by the current owner (or is a claim signed by the pending owner).", "quantifier": "every reachable state and every instruction with any accounts and signers", "why_tests_cant": "Access control must hold for every instruction and account substitution.", "anchors": ["solana/programs/example-native-token-transfers/src/instructions/admin.rs", "solana/programs/example-native-token-transfers/src/transceivers/wormhole/instructions/admin.rs", "solana/programs/ntt-transceiver/src/wormhole/instructions/admin.rs"]}
{"id": "C25", "title": "Ownership moves only by consent", "statement": "Ownership changes only through a two-step transfer claimed by the named successor or through a one-step transfer signed by the owner; a pending transfer can be cancelled by the owner, and until claimed the owner keeps its powers.", "quantifier": "every history", "why_tests_cant": "Interleavings of transfer, cancel, claim and one-step transfer.", "anchors": ["solana/programs/example-native-token-transfers/src/instructions/admin.rs: transfer_ownership, claim_ownership, transfer_ownership_one_step_unchecked"]}
{"id": "C26", "title": "The upgrade authority follows ownership", "statement": "While no transfer is pending the program's upgrade authority is the owner; while one is pending it is the program's own lock, so nobody can upgrade; a new transfer cannot be started while one is pending.", "quantifier": "every history in which the authority is changed only through this program", "why_tests_cant": "Interleavings over two independent records (config and loader state).", "anchors": ["solana/programs/example-native-token-transfers/src/instructions/admin.rs", "solana/programs/example-native-token-transfers/src/instructions/initialize.rs"]}
{"id": "C27", "title": "Transceiver identities are unique and permanent", "statement": "Registered transceivers get distinct ids 0,1,2,..., each program is registered at most once, ids never change, at most 128 can be registered, and a failed registration changes nothing.", "quantifier": "every history", "why_tests_cant": "Needs all registration orders up to and past the 128th.", "anchors": ["solana/programs/example-native-token-transfers/src/instructions/admin.rs: register_transceiver", "solana/programs/example-native-token-transfers/src/registered_transceiver.rs"]}
{"id": "C28", "title": "Pausing stops value movement and nothing else", "statement": "While paused no outbound transfer, outbound release, inbound release or wormhole receive succeeds, so the custody balance, the supply controlled by the program and published messages do not change; redeeming votes and owner administration keep working, and only the owner can pause or unpause.", "quantifier": "every reachable paused state and every instruction", "why_tests_cant": "A statement about all instructions in all paused states.", "anchors": ["solana/programs/example-native-token-transfers/src/config.rs: NotPausedConfig", "solana/programs/example-native-token-transfers/src/instructions"]}
{"id": "C29", "title": "A lock transfer moves exactly the dust-free amount into custody", "statement": "A successful lock transfer debits the sender by exactly the dust-free amount, credits custody by exactly that amount and changes no other balance or the supply; tokens that take a fee on transfer are refused; the recorded outbound message carries the same value, recipient, destination chain and sender.", "quantifier": "every state, amount, mint (with or without transfer fees), peer decimals", "why_tests_cant": "All token configurations and amounts.", "anchors": ["solana/programs/example-native-token-transfers/src/instructions/transfer.rs: transfer_lock, insert_into_outbox"]}
{"id": "C30", "title": "A burn transfer destroys exactly the dust-free amount", "statement": "A successful burn transfer debits the sender and the supply by exactly the dust-free amount and leaves custody unchanged; the recorded outbound message carries the same value.", "quantifier": "every state, amount, mint and peer decimals", "why_tests_cant": "All token configurations and amounts.", "anchors": ["solana/programs/example-native-token-transfers/src/instructions/transfer.rs: transfer_burn"]}
{"id": "C31", "title": "A third party cannot alter a delegated transfer", "statement": "Funds leave a user's account through this program only if the user delegated to the session authority for exactly those arguments (amount, destination chain, recipient, queue flag) and for their own account, and never more than the approved amount in total.", "quantifier": "every history with any number of relayers using any accounts", "why_tests_cant": "Adversarial substitution of arguments and accounts.", "anchors": ["solana/programs/example-native-token-transfers/src/lib.rs: SESSION_AUTHORITY_SEED", "solana/programs/example-native-token-transfers/src/instructions/transfer.rs: TransferArgs::keccak256, TransferBurn, TransferLock"]}
{"id": "C32", "title": "Outbound rate limiting delays or refuses, never loses funds", "statement": "An outbound transfer within capacity becomes releasable immediately and uses up exactly its amount; beyond capacity it is refused when the user did not agree to queue, and otherwise becomes releasable exactly 24 hours later with the limiter untouched. The opposite limiter is refilled exactly when the transfer was immediate.", "quantifier": "every state, time, amount", "why_tests_cant": "Boundary between the two branches for every limiter state.", "anchors": ["solana/programs/example-native-token-transfers/src/instructions/transfer.rs: insert_into_outbox"]}
{"id": "C33", "title": "Each outbound transfer is published at most once per transceiver and never early", "statement": "For each outbound transfer and each transceiver at most one message is ever published, only if the transceiver is registered and enabled, and never before the release time.", "quantifier": "every history, with any mix of built-in and stand-alone transceivers", "why_tests_cant": "Replay across arbitrary histories.", "anchors": ["solana/programs/example-native-token-transfers/src/queue/outbox.rs: try_release", "solana/programs/example-native-token-transfers/src/transceivers/wormhole/instructions/release_outbound.rs", "solana/programs/example-native-token-transfers/src/instructions/mark_outbox_item_as_released.rs", "solana/programs/ntt-transceiver/src/wormhole/instructions/release_outbound.rs"]}
{"id": "C34", "title": "Published messages state what was deposited", "statement": "Every message published for an outbound transfer carries the amount, recipient, destination chain, destination manager, sender, token and unique id of a transfer that was really deposited (locked or burned), unchanged since.", "quantifier": "every history", "why_tests_cant": "Link between two transactions separated by arbitrary interleavings.", "anchors": ["solana/programs/example-native-token-transfers/src/transceivers/wormhole/instructions/release_outbound.rs", "solana/programs/ntt-transceiver/src/wormhole/instructions/release_outbound.rs", "solana/programs/example-native-token-transfers/src/queue/outbox.rs"]}
{"id": "C35", "title": "Inbound messages need enough distinct enabled transceivers", "statement": "An inbound transfer becomes payable only after at least `threshold` distinct, registered and then-enabled transceivers delivered exactly this message, where each delivery is an account written by that transceiver's program.", "quantifier": "every history and vote order", "why_tests_cant": "Quorum over all vote histories.", "anchors": ["solana/programs/example-native-token-transfers/src/instructions/redeem.rs", "solana/programs/example-native-token-transfers/src/queue/inbox.rs"]}
{"id": "C36", "title": "Inbound messages come from the registered peer and are addressed to this deployment", "statement": "Every inbound transfer that becomes payable came from a message whose source manager is the registered peer of its source chain, whose recipient manager is this program and whose destination chain is this chain.", "quantifier": "every history with arbitrary attacker-supplied messages and accounts", "why_tests_cant": "Adversarial messages.", "anchors": ["solana/programs/example-native-token-transfers/src/instructions/redeem.rs: Redeem", "solana/programs/example-native-token-transfers/src/transceivers/wormhole/instructions/receive_message.rs"]}
{"id": "C37", "title": "Each inbound message is paid at most once", "statement": "In any history, for any message (source chain and contents), tokens are released at most once, whichever transceivers deliver it and however often it is redeemed or released.", "quantifier": "every history, any number of replays, any interleaving of release instructions", "why_tests_cant": "Replay across unbounded histories.", "anchors": ["solana/programs/example-native-token-transfers/src/queue/inbox.rs: try_release, release_after", "solana/programs/example-native-token-transfers/src/instructions/release_inbound.rs", "solana/programs/example-native-token-transfers/src/instructions/redeem.rs"]}
{"id": "C38", "title": "Release status only moves forward", "statement": "An inbound transfer goes from not-approved to scheduled at one fixed time to released, never back, and its amount and recipient never change after creation.", "quantifier": "every history", "why_tests_cant": "All interleavings of redeem and release.", "anchors": ["solana/programs/example-native-token-transfers/src/queue/inbox.rs", "solana/programs/example-native-token-transfers/src/instructions/redeem.rs"]}
{"id": "C39", "title": "Inbound delays are respected", "statement": "An inbound transfer beyond the inbound capacity is not paid before 24 hours after approval; one within capacity uses exactly its amount of inbound capacity, refills outbound capacity by the same amount, and is payable at once. No transfer is ever paid before its scheduled time.", "quantifier": "every history and every clock behaviour", "why_tests_cant": "Times and histories unbounded.", "anchors": ["solana/programs/example-native-token-transfers/src/instructions/redeem.rs: redeem", "solana/programs/example-native-token-transfers/src/instructions/release_inbound.rs", "solana/programs/example-native-token-transfers/src/queue/inbox.rs: try_release"]}
{"id": "C40", "title": "Payouts are exactly what the message says", "statement": "A release pays the recipient named in the message, in this deployment's mint, exactly the message's amount converted to local decimals, taking it from custody (locking) or from newly created supply (burning), and changes no other balance.", "quantifier": "every history and message", "why_tests_cant": "End-to-end link from message to balance for all amounts and decimals.", "anchors": ["solana/programs/example-native-token-transfers/src/instructions/redeem.rs", "solana/programs/example-native-token-transfers/src/instructions/release_inbound.rs: release_inbound_mint, release_inbound_unlock"]}
{"id": "C41", "title": "Replays have no effect", "statement": "Redeeming again a message that is already approved or released fails and changes nothing: no limiter capacity is consumed or refilled, no vote or status changes.", "quantifier": "every reachable state", "why_tests_cant": "All states after approval, from every transceiver.", "anchors": ["solana/programs/example-native-token-transfers/src/instructions/redeem.rs", "solana/programs/example-native-token-transfers/src/queue/inbox.rs: release_after"]}
{"id": "C42", "title": "Custody is never drained below outstanding deposits", "statement": "In locking mode, at all times the custody balance is at least its initial balance plus everything locked by transfers minus everything paid out to message recipients; nothing else can take tokens out of custody.", "quantifier": "every history with arbitrary third-party token operations", "why_tests_cant": "Conservation over all histories.", "anchors": ["solana/programs/example-native-token-transfers/src/instructions/transfer.rs: transfer_lock", "solana/programs/example-native-token-transfers/src/instructions/release_inbound.rs: release_inbound_unlock"]}
{"id": "C43", "title": "In burning mode supply tracks messages", "statement": "In burning mode the token supply equals the initial supply plus everything minted for released messages minus everything burned (by transfers or by holders), and only released messages create supply; custody keeps nothing of a transfer.", "quantifier": "every history with arbitrary third-party token operations", "why_tests_cant": "Conservation over all histories.", "anchors": ["solana/programs/example-native-token-transfers/src/instructions/transfer.rs: transfer_burn", "solana/programs/example-native-token-transfers/src/instructions/release_inbound.rs: release_inbound_mint"]}
{"id": "C44", "title": "Approved inbound transfers can always be released once due", "statement": "An approved, due inbound transfer of an unpaused deployment can be released by anyone without special rights, provided the recipient token account exists and (in locking mode) custody holds the amount; a due outbound transfer can always be published by an enabled transceiver.", "quantifier": "every reachable state meeting the premises", "why_tests_cant": "Absence of stuck states over all reachable states.", "anchors": ["solana/programs/example-native-token-transfers/src/instructions/release_inbound.rs", "solana/programs/example-native-token-transfers/src/transceivers/wormhole/instructions/release_outbound.rs"]}
{"id": "C45", "title": "Wormhole receipts are authentic and unique", "statement": "A validated message account of the wormhole transceiver exists only if a guardian-verified message with the same contents came from the registered peer of that chain addressed to this chain; per source chain and message id it is created once and never changes.", "quantifier": "every history", "why_tests_cant": "Adversarial verified messages from arbitrary emitters.", "anchors": ["solana/programs/example-native-token-transfers/src/transceivers/wormhole/instructions/receive_message.rs", "solana/programs/ntt-transceiver/src/wormhole/instructions/receive_message.rs"]}
{"id": "C46", "title": "Marking an outbound transfer as released is reserved to the transceiver itself", "statement": "A transceiver's published flag on an outbound transfer changes only by an instruction signed by that transceiver program's own derived signer (or by the built-in transceiver), and no transceiver can set another's flag.", "quantifier": "every history with arbitrary third-party programs", "why_tests_cant": "Adversarial callers.", "anchors": ["solana/programs/example-native-token-transfers/src/instructions/mark_outbox_item_as_released.rs", "solana/programs/example-native-token-transfers/src/transceivers/wormhole/instructions/release_outbound.rs"]}
{"id": "C47", "title": "Setting a peer preserves the used inbound capacity", "statement": "Re-registering a peer changes the peer's address, decimals and limit without giving back inbound capacity that has already been used.", "quantifier": "every reachable state", "why_tests_cant": "Depends on the limiter history before the call.", "anchors": ["solana/programs/example-native-token-transfers/src/instructions/admin.rs: set_peer"]}
{"id": "C48", "title": "Value is conserved across chains", "statement": "In a network with one locking deployment and any number of burning deployments registered as each other's peers, under every interleaving of transfers, message deliveries and releases, the custody of the locking deployment covers the value of all tokens minted on the burning deployments plus everything in flight.", "quantifier": "every history of the whole network, any number of chains, any delivery order, duplication or loss of messages", "why_tests_cant": "Distributed history; no test harness runs several chains under adversarial delivery.", "anchors": ["solana/programs/example-native-token-transfers/src/instructions/transfer.rs", "solana/programs/example-native-token-transfers/src/instructions/redeem.rs", "solana/programs/example-native-token-transfers/src/instructions/release_inbound.rs", "solana/programs/example-native-token-transfers/src/transceivers/wormhole"]}
{"id": "C49", "title": "Relay fees follow the published formula without overflow", "statement": "The relay fee is the stated formula (gas cost and drop-off priced in the destination token, plus base price, converted to lamports, at least the rent), computed with floor division at the stated points; if any intermediate value does not fit, the request fails and nothing is charged.", "quantifier": "every price, gas and drop-off setting", "why_tests_cant": "Five 64-bit inputs with intermediate products beyond 64 bits.", "anchors": ["solana/programs/ntt-quoter/src/processor/request_relay.rs: mul_div, request_relay"]}
{"id": "C50", "title": "A relay request never costs more than the user's limit", "statement": "A successful relay request takes from the payer exactly max(fee, rent) lamports, at most max_fee, and places all of it in the new request account; it succeeds only for enabled chains, non-zero sol price and a drop-off within the chain's limit.", "quantifier": "every state and argument", "why_tests_cant": "All prices.", "anchors": ["solana/programs/ntt-quoter/src/processor/request_relay.rs: request_relay"]}
{"id": "C51", "title": "Relays are requested only for published transfers of registered deployments", "statement": "A relay request exists only for an outbound transfer that the registered transceiver index has already published, owned by a registered deployment, and there is at most one open request per transfer.", "quantifier": "every history", "why_tests_cant": "Link between independent programs over all histories.", "anchors": ["solana/programs/ntt-quoter/src/processor/request_relay.rs: check_release_constraint_and_fetch_chain_id", "solana/programs/ntt-quoter/src/state.rs"]}
{"id": "C52", "title": "Quoter administration is restricted and relay money goes to the fee recipient", "statement": "Only the owner changes assistant or fee recipient; only owner or assistant changes prices, registrations or closes requests; closing a request pays its whole balance to the configured fee recipient.", "quantifier": "every history with any signers", "why_tests_cant": "Access control for every instruction.", "anchors": ["solana/programs/ntt-quoter/src/processor/admin.rs", "solana/programs/ntt-quoter/src/processor/update_prices.rs", "solana/programs/ntt-quoter/src/processor/close_relay.rs"]}
{"id": "C53", "title": "Governance messages survive encode/decode and reject everything else", "statement": "Every encodable governance message decodes to itself; decoding accepts only the governance module, the Solana-call action, the Solana chain; encoding fails exactly when the account list or data exceeds 65535.", "quantifier": "every governance message and byte string", "why_tests_cant": "Unbounded lists of accounts and data.", "anchors": ["solana/programs/wormhole-governance/src/instructions/governance.rs: GovernanceMessage"]}
{"id": "C54", "title": "Governance executes each authorised instruction at most once and exactly as written", "statement": "An instruction is executed with the governance authority only for a verified message from the governance emitter on Solana addressed to this governance program, at most once per sequence number, with exactly the program, data and accounts of the message except that the owner and payer placeholders are replaced.", "quantifier": "every history of governance submissions by anyone", "why_tests_cant": "Replay and substitution over all histories.", "anchors": ["solana/programs/wormhole-governance/src/instructions/governance.rs: governance, Governance accounts"]}
{"id": "C55", "title": "Disagreeing deliveries do not help each other", "statement": "Votes for a message never count towards a message that differs in any field or source chain.", "quantifier": "every history", "why_tests_cant": "Needs every pair of messages.", "anchors": ["solana/programs/example-native-token-transfers/src/instructions/redeem.rs: inbox_item seeds", "solana/modules/ntt-messages/src/ntt_manager.rs: keccak256"]}
{"id": "C56", "title": "Transactions that fail part-way leave nothing behind", "statement": "Every history of transactions, each of which executes completely or not at all, ends in a state that some history of single successful instructions also reaches, so every safety property above holds at transaction boundaries whatever fails.", "quantifier": "every grouping of instructions into transactions and every failure point", "why_tests_cant": "All crash points.", "anchors": ["solana/programs/*/src: all instruction handlers"]}
{"id": "C57", "title": "Operations of amount zero do not slow down the refill of a rate limiter", "statement": "Performing additional operations of amount zero on a rate limiter never leaves less capacity at a later time than not performing them.", "quantifier": "every limiter state and every sequence of zero-amount operations interleaved at any times", "why_tests_cant": "The loss comes from rounding at each operation and only shows over long interleavings; a test fixes one schedule.", "anchors": ["solana/programs/example-native-token-transfers/src/queue/rate_limit.rs:RateLimitState::capacity_at", "solana/programs/example-native-token-transfers/src/queue/rate_limit.rs:RateLimitState::consume_or_delay"]}
{"id": "C58", "title": "Exact charge of a relay request whose address already holds lamports", "statement": "A successful relay request takes from the payer max(fee, rent) minus the lamports the request's address already held, the latter counted up to the rent.", "quantifier": "every reachable state, including ones where strangers sent lamports to the address beforehand", "why_tests_cant": "tests always start from an empty address; the dependence on prior lamports comes from Anchor's init and needs all balances", "anchors": ["solana/programs/ntt-quoter/src/processor/request_relay.rs: RequestRelay accounts, request_relay"]}
{"id": "C59", "title": "The quoter's owner is the upgrade authority that initialised it, for ever", "statement": "The instance is created only by the upgrade authority's signature, which becomes its owner; no instruction changes the owner; the default key that stands for 'no assistant' can never act.", "quantifier": "every history with any signers", "why_tests_cant": "tests run a few instructions by a few signers; the claim is about all histories", "anchors": ["solana/programs/ntt-quoter/src/processor/admin.rs: Initialize, initialize", "solana/programs/ntt-quoter/src/state.rs: Instance"]}
{"id": "C60", "title": "The announced size of a governance message is its encoded size", "statement": "written_size of a governance message equals the number of bytes write produces.", "quantifier": "every encodable governance message", "why_tests_cant": "the repository's tests never compare the two; the claim is about all messages", "anchors": ["solana/programs/wormhole-governance/src/instructions/governance.rs: Writeable for GovernanceMessage"]}
{"id": "C61", "title": "Governance hands on no signature or write permission it was not given", "statement": "In a call executed by governance, an account is marked signer only if it is the governance address or signed the submission, and marked writable only if it was submitted as writable.", "quantifier": "every history, including governed calls of governance to itself", "why_tests_cant": "tests check a few account lists; the claim covers every message and every submission", "anchors": ["solana/programs/wormhole-governance/src/instructions/governance.rs: governance"]}
{"id": "C62", "title": "Broadcasts describe the deployment", "statement": "Every message a wormhole transceiver ever posted is a transfer, an announcement or a peer registration; an announcement states the manager program, the mode and mint of its configuration and the decimals of that mint; a registration states the transceiver's peer on that chain; both stay true in every later state, and no two contradict each other.", "quantifier": "every reachable state, both transceiver programs, all posted messages", "why_tests_cant": "tests compare one broadcast with the settings of the moment; the claim is that no later history can falsify an announcement", "anchors": ["solana/programs/example-native-token-transfers/src/transceivers/wormhole/instructions/broadcast_id.rs: broadcast_id", "solana/programs/example-native-token-transfers/src/transceivers/wormhole/instructions/broadcast_peer.rs: broadcast_peer", "solana/programs/ntt-transceiver/src/wormhole/instructions/broadcast_id.rs: broadcast_id"]}
{"id": "C63", "title": "Everything published can be encoded and decodes to itself", "statement": "Whatever 32 bytes addresses have, each message posted by a transceiver has an encoding (serialisation does not panic), laid out as documented with absolute offsets; decoding it gives the message back with nothing left over, and it is rejected by the decoders of the two other kinds of message.", "quantifier": "every reachable state, every posted message, every assignment of bytes to addresses", "why_tests_cant": "tests serialise hand-made messages; the claim covers exactly the messages the programs can produce", "anchors": ["solana/programs/example-native-token-transfers/src/transceivers/wormhole/instructions/release_outbound.rs: release_outbound", "solana/modules/ntt-messages/src/transceiver.rs: TransceiverMessage", "solana/modules/ntt-messages/src/transceivers/wormhole.rs: WormholeTransceiverInfo, WormholeTransceiverRegistration"]}
{"id": "C64", "title": "Sharing an inbox item or a session authority takes equal bytes or a hash collision", "statement": "With inbox items and session authorities derived from a 32-byte hash of the bytes the code hashes: two deliveries counted for one inbox item have the same source chain and the same message bytes, and two approvals of one session authority have the same owner and argument bytes, or else the two hashed strings are an explicit collision of the hash.", "quantifier": "every hash function with 32-byte output, every assignment of bytes to addresses, every history", "why_tests_cant": "a test can only try particular messages; the claim reduces every confusion of two messages to a collision of keccak-256", "anchors": ["solana/modules/ntt-messages/src/ntt_manager.rs: keccak256", "solana/programs/example-native-token-transfers/src/instructions/transfer.rs: TransferArgs::keccak256", "solana/programs/example-native-token-transfers/src/instructions/redeem.rs: Redeem"]}
{"id": "C65", "title": "The canonical lookup table holds the deployment's accounts and is never taken back", "statement": "Every lookup table of the program's table authority is active, owned by that authority, has at most 256 entries and contains only the accounts of the deployment in the documented order, once per initialisation; the record account points at such a table; tables of the authority are append-only and never frozen, deactivated or closed; anyone can make and record a table at a recent slot even if somebody created the table first.", "quantifier": "every reachable state and every sequence of instructions of the programs and of the lookup table program, by any signers", "why_tests_cant": "tests make one table and look at it; the claim is about every sequence of calls by anyone, including direct calls of the lookup table program", "anchors": ["solana/programs/example-native-token-transfers/src/instructions/luts.rs: initialize_lut", "solana/programs/example-native-token-transfers/src/instructions/luts.rs: InitializeLUT, Entries", "solana/programs/example-native-token-transfers/src/transceivers/wormhole/accounts.rs: WormholeAccounts"]}
{"id": "C66", "title": "Administrative instructions succeed exactly when allowed and store exactly their arguments", "statement": "In every reachable state, initialisation, pausing, setting a peer, registering a transceiver, changing either rate limit, offering, giving away, claiming or taking back ownership, setting a transceiver peer and receiving a message each succeed if and only if the stated conditions hold (who signs, which accounts exist, the clock for limits), and when they succeed they store exactly the values given by their arguments, keep every other part of the configuration and change no other account, token account, mint, clock or published message.", "quantifier": "every reachable state, every signer set, every argument in range, every supplied account", "why_tests_cant": "tests call each instruction from a handful of states; they cannot show that nothing else is ever changed nor that no other condition makes the instruction fail", "anchors": ["solana/programs/example-native-token-transfers/src/instructions/initialize.rs: initialize", "solana/programs/example-native-token-transfers/src/instructions/admin.rs: set_peer, register_transceiver, set_outbound_limit, set_inbound_limit, set_paused", "solana/programs/example-native-token-transfers/src/instructions/admin.rs: transfer_ownership, transfer_ownership_one_step_unchecked, claim_ownership", "solana/programs/example-native-token-transfers/src/transceivers/wormhole/instructions/admin.rs: set_transceiver_peer", "solana/programs/example-native-token-transfers/src/transceivers/wormhole/instructions/receive_message.rs: receive_message"]}
{"id": "C67", "title": "Transfers, redemptions, releases and publications succeed exactly under their conditions and do exactly what they say", "statement": "In every reachable state, locking, burning, redeeming, releasing by unlocking or by minting, publishing an outbound item, marking an item as sent and both broadcasts succeed if and only if the listed conditions hold (configuration, mode, pause, peers, registered and enabled transceiver, token balances and allowance, fee, limits and clock, freshness of the created accounts, acceptance by the bridge), and when they succeed they produce exactly the stated outbox or inbox item, limiter states, token balances, supply, withheld fees and published message, and change no other account, token account or mint.", "quantifier": "every reachable state, every signer set, every supplied account and argument in range", "why_tests_cant": "tests run a few successful transfers and a few refusals; they cannot show that the listed conditions are all the conditions, nor that no other state is touched for any input", "anchors": ["solana/programs/example-native-token-transfers/src/instructions/transfer.rs: transfer_lock, transfer_burn, insert_into_outbox", "solana/programs/example-native-token-transfers/src/instructions/redeem.rs: redeem", "solana/programs/example-native-token-transfers/src/instructions/release_inbound.rs: release_inbound_mint, release_inbound_unlock", "solana/programs/example-native-token-transfers/src/instructions/mark_outbox_item_as_released.rs: mark_outbox_item_as_released", "solana/programs/example-native-token-transfers/src/transceivers/wormhole/instructions/release_outbound.rs: release_outbound", "solana/programs/example-native-token-transfers/src/transceivers/wormhole/instructions/broadcast_id.rs: broadcast_id", "solana/programs/example-native-token-transfers/src/transceivers/wormhole/instructions/broadcast_peer.rs: broadcast_peer"]}
{"id": "C68", "title": "The relay quoter's instructions succeed exactly under their conditions, do exactly what they say and conserve lamports", "statement": "In every reachable state, each of the quoter's eleven instructions succeeds if and only if the listed conditions hold (who signs, which accounts exist, prices, limits and lamports of the payer), and when it succeeds it creates, updates or closes exactly the account it is about with exactly the stated contents, moves exactly the stated number of lamports between exactly two addresses (rent for new accounts, the charge of a request, the whole balance of a closed account), and changes nothing else. Over any history the total of lamports is unchanged.", "quantifier": "every reachable quoter state, every signer set, every supplied account and argument in range; every history for the total", "why_tests_cant": "tests use a few prices and balances; they cannot show that the listed conditions are all the conditions, that pre-funded addresses are charged correctly for every balance, or that no history makes or destroys lamports", "anchors": ["solana/programs/ntt-quoter/src/processor/admin.rs: initialize, set_fee_recipient, set_assistant, register_chain, register_ntt, deregister_ntt", "solana/programs/ntt-quoter/src/processor/update_prices.rs: update_sol_price, update_chain_prices, update_chain_params", "solana/programs/ntt-quoter/src/processor/request_relay.rs: request_relay", "solana/programs/ntt-quoter/src/processor/close_relay.rs: close_relay"]}
{"id": "C69", "title": "The relay fee is monotone in every price and rounds only in the payer's favour, by a bounded amount", "statement": "The relay fee never decreases when the destination's native price, gas price, base price, gas cost or drop-off increases or the price of sol decreases. It never exceeds the unrounded rational fee and falls short of it by less than one lamport plus the lamport value of one gwei of the destination token and of one micro-usd.", "quantifier": "all prices, costs and drop-offs", "why_tests_cant": "tests compute a few fees; monotonicity and the bound concern all 64-bit inputs and the interplay of three roundings", "anchors": ["solana/programs/ntt-quoter/src/processor/request_relay.rs: mul_div, request_relay"]}
{"id": "C70", "title": "A governance submission succeeds exactly under its conditions and does exactly the governed call", "statement": "At every call depth, a governance submission succeeds if and only if the call carries the instruction tag and the required accounts (signing and writable payer, writable governance address, posted message from the governance emitter on Solana addressed to this program, executable program, unused writable replay account of that message, system program), every account and privilege the message asks for was given to the program or is its own signature, and the governed call succeeds. It then performs exactly that call, marks exactly that message as used, and changes nothing else.", "quantifier": "every state, account list, instruction data, posted message, call depth and behaviour of other programs", "why_tests_cant": "tests submit one or two well-formed messages; they cannot show that no other condition blocks a message and that no other accounts or data can trigger a call", "anchors": ["solana/programs/wormhole-governance/src/instructions/governance.rs: governance, Governance, GovernanceMessage"]}
{"id": "C71", "title": "A deployment owned by governance changes only by governance messages", "statement": "While a manager deployment and its upgrade authority belong to the governance program's derived address and no ownership offer stands, in every execution of governance, manager, transceivers and everybody else together: the settings, owner and upgrade authority stay the same until governance executes a call that carries its signature; every executed call was authorised by a posted governance message from the governance emitter, and one that carries the signature comes from a message that marks the governance address as signer. A posted unused message that pauses or resumes the deployment takes effect whoever submits it.", "quantifier": "every history of both programs together, every behaviour of the programs governance calls, every submitter", "why_tests_cant": "tests run one governed call; they cannot show that no sequence of other calls, including governed calls without the signature, moves a setting", "anchors": ["solana/programs/wormhole-governance/src/instructions/governance.rs: governance", "solana/programs/example-native-token-transfers/src/instructions/admin.rs"]}
{"id": "C72", "title": "Instruction data are decoded exactly and unambiguously", "statement": "Each program runs a function on given arguments if and only if the instruction data are the eight-byte tag of a function it offers (for the transfer hook also the interface's execute tag), followed by the documented encoding of arguments within their types, followed by anything. All other data are refused, no data stand for two calls, and the tags of a program differ from one another and from Anchor's idl tag.", "quantifier": "every byte string, every program and every function of the workspace", "why_tests_cant": "tests send data produced by the client library; they cannot show that no other byte string triggers a function or that two encodings never collide", "anchors": ["solana/programs/example-native-token-transfers/src/lib.rs: example_native_token_transfers", "solana/programs/ntt-transceiver/src/lib.rs: ntt_transceiver", "solana/programs/ntt-quoter/src/lib.rs: ntt_quoter", "solana/programs/wormhole-governance/src/lib.rs", "solana/programs/dummy-transfer-hook/src/lib.rs: fallback"]}
{"id": "C73", "title": "Instructions touch only the accounts they are given", "statement": "An instruction of the manager or of the stand-alone transceiver, called with any list of accounts and privileges and any data, changes only accounts passed as writable, depends only on the accounts passed and the clock, and depends on signatures only in that a missing one leads to refusal. Whatever is passed, the effect is that of one of the modelled instructions with the signatures passed, every pinned account standing in its place; and every modelled instruction that succeeds can be called in this way with no further signature than a payer's.", "quantifier": "every account list, privilege assignment, instruction data and state; every instruction of both programs", "why_tests_cant": "tests pass the accounts that the client library derives; a forgotten `mut` (writes silently lost), an unpinned account or a read of something not passed shows only on account lists nobody tries", "anchors": ["solana/programs/example-native-token-transfers/src/instructions/transfer.rs: Transfer, TransferBurn, TransferLock", "solana/programs/example-native-token-transfers/src/instructions/redeem.rs: Redeem", "solana/programs/example-native-token-transfers/src/instructions/release_inbound.rs: ReleaseInbound", "solana/programs/example-native-token-transfers/src/instructions/admin.rs", "solana/programs/example-native-token-transfers/src/instructions/initialize.rs: Initialize", "solana/programs/example-native-token-transfers/src/instructions/luts.rs: InitializeLUT, Entries", "solana/programs/example-native-token-transfers/src/transceivers/wormhole/instructions", "solana/programs/ntt-transceiver/src/wormhole/instructions/release_outbound.rs: ReleaseOutbound"]}
{"id": "C74", "title": "Calls without shared writable accounts commute", "statement": "If two calls succeed one after the other and neither has write access to an account that the other is passed, then they also succeed in the other order, and the final states are the same: accounts, token balances, mints, upgrade authority and the bridge's log.", "quantifier": "every two calls of the two programs, with any accounts, privileges and data, from every state", "why_tests_cant": "the runtime may execute such calls in parallel in any order; tests run them in one order", "anchors": ["solana/programs/example-native-token-transfers/src/lib.rs: example_native_token_transfers", "solana/programs/ntt-transceiver/src/lib.rs: ntt_transceiver"]}
{"id": "C75", "title": "Calls mean what the published interface says", "statement": "Every call of the manager or the stand-alone transceiver that succeeds is, by its data, one of the functions of the published IDL and does what that function does with the accounts passed under the IDL's names; every account the IDL lists was passed with at least the signer and write privileges listed; passing exactly the listed accounts and privileges would have had the same result; and the names of program-derived addresses (token authority, upgrade lock, emitter, outbox item signer, lookup table record, bridge accounts of messages) stand for exactly those.", "quantifier": "every call with any list of accounts, any privileges and any data, from every state", "why_tests_cant": "tests build calls with the generated client and so never separate the data, the positions and the privileges", "anchors": ["solana/ts/idl/3_0_0/json/example_native_token_transfers.json", "solana/ts/idl/3_0_0/json/ntt_transceiver.json", "solana/programs/example-native-token-transfers/src/lib.rs: example_native_token_transfers", "solana/programs/ntt-transceiver/src/lib.rs: ntt_transceiver"]}
{"id": "C76", "title": "A recorded transfer can be delivered without anyone's signature", "statement": "In every reachable state of a network of deployments, an outbound transfer recorded on one chain, not yet published by an enabled transceiver, whose destination deployment is running, knows the source and has not redeemed the message, can be carried to its recipient by seven calls none of which is signed (clock, publish, attestation, receive, redeem, clock, release); afterwards exactly the recipient has the converted amount less the token's own fee, custody or supply changed by that amount, and the waiting was at most the outbound release time and one day. If one chain locks and the others burn mints that began without supply, custody always holds enough for each unpaid transfer back, so no premise about funds is needed.", "quantifier": "every reachable network state, every pair of chains, every recorded transfer, both modes, every limiter state", "why_tests_cant": "liveness over all reachable states of several chains; tests drive single happy paths on one chain", "anchors": ["solana/programs/example-native-token-transfers/src/transceivers/wormhole/instructions/release_outbound.rs: release_outbound", "solana/programs/example-native-token-transfers/src/transceivers/wormhole/instructions/receive_message.rs: receive_message", "solana/programs/example-native-token-transfers/src/instructions/redeem.rs: redeem", "solana/programs/example-native-token-transfers/src/instructions/release_inbound.rs: release_inbound_mint, release_inbound_unlock"]}
{"id": "C77", "title": "Supply is exactly what accounts hold, and no transfer in a hub network lacks funds", "statement": "On a chain where for every mint the holdings of all token accounts and the withheld transfer fees added up to the supply, they do so after every execution; hence any set of accounts together holds at most the supply, and a recipient's balance always has 64-bit room for what custody, or the room left in the supply, can pay. In a network of one locking and any number of burning deployments whose mints began without supply, all holdings on the burning chains, fees withheld there and transfers in flight are covered by custody, and every recorded transfer between two ready deployments, to a token with no more decimals than the hub's, can be delivered without any premise about balances, custody or supply.", "quantifier": "every execution of every call on every chain, every list of holders, every hub network, every recorded transfer", "why_tests_cant": "a sum over all accounts that may ever exist, kept by every call, and its consequence over several chains; tests look at two or three accounts after single calls", "anchors": ["solana/programs/example-native-token-transfers/src/instructions/transfer.rs: transfer_lock, transfer_burn", "solana/programs/example-native-token-transfers/src/instructions/release_inbound.rs: release_inbound_mint, release_inbound_unlock", "solana/programs/example-native-token-transfers/src/instructions/redeem.rs: redeem", "solana/modules/ntt-messages/src/trimmed_amount.rs: TrimmedAmount::untrim"]}
{"id": "C78", "title": "Transfer hooks cannot be bypassed", "statement": "Run together with an arbitrary transfer-hook program named by the Token-2022 mint, an instruction succeeds exactly if it succeeds apart from the hook and the hook accepts the calls owed to it, and then the hook got exactly these calls: one for an outbound transfer (sender's account to custody, session authority, the recorded amount; in burning mode as well), one for a release that pays (custody to the recipient's associated account, token authority, the item's amount; in burning mode as well), none for any other instruction of the programs. Over any history every account's holding, other than the custody of a burning deployment, is the initial one plus what the hook was told went in (less the fee) and out plus what third parties minted, burnt or withdrew as fees; so a hook that refuses an account as destination or source keeps the programs from raising or lowering its holding. The repository's dummy hook counts exactly the calls it gets and serves only the first mint it is initialised for: no other mint naming it can be transferred.", "quantifier": "every hook program and hook state, every reachable state, every history, every instruction, every mint and account", "why_tests_cant": "the tests use one hook that accepts everything and count two calls; whether some path of the programs moves tokens past an arbitrary hook is a statement about all instructions and histories", "anchors": ["solana/programs/example-native-token-transfers/src/instructions/transfer.rs: transfer_lock, transfer_burn", "solana/programs/example-native-token-transfers/src/instructions/release_inbound.rs: release_inbound_mint, release_inbound_unlock", "solana/programs/dummy-transfer-hook/src/lib.rs: initialize_extra_account_meta_list, transfer_hook"]}
{"id": "C79", "title": "Payers pay exactly the missing rent and the bridge's fee, and accounts of the programs keep their lamports", "statement": "With lamports, payers and rent added to every instruction: an instruction that succeeds apart from lamports succeeds exactly if its payer has signed, is not one of the accounts being created, carries no data and can pay the bill, and then moves exactly the bill: for every new account what it lacks to its rent-exempt minimum, the bridge's current fee if a message is posted (so the bridge never finds its fee missing), and what the bridge and the lookup table program take for their own accounts. An outbound transfer costs max(0, minimum - lamports already at the item); releases of inbound transfers and administration of existing accounts cost nothing. Nobody but a signing payer without data loses lamports. No account of the programs ever vanishes, changes size or loses lamports, each holds the rent-exempt minimum, and custody does not lose lamports. Lamports sent in advance to any address make no instruction fail or more expensive. No lamport appears or disappears. Others than the programs can move lamports exactly where the holder, the owner of the token account or another program decides over them.", "quantifier": "every reachable state with lamports, every instruction, payer, fee, rent schedule and choice of what the bridge takes, every history including lamport movements of third parties", "why_tests_cant": "tests run with one rich payer and empty addresses; pre-funded addresses, arbitrary payers, changed fees and rent over whole histories are not run", "anchors": ["solana/programs/example-native-token-transfers/src/instructions/initialize.rs: Initialize", "solana/programs/example-native-token-transfers/src/instructions/transfer.rs: Transfer", "solana/programs/example-native-token-transfers/src/instructions/redeem.rs: Redeem", "solana/programs/example-native-token-transfers/src/instructions/admin.rs: SetPeer, RegisterTransceiver", "solana/programs/example-native-token-transfers/src/instructions/luts.rs: initialize_lut", "solana/programs/example-native-token-transfers/src/transceivers/wormhole/accounts.rs: pay_wormhole_fee, post_message", "solana/programs/ntt-transceiver/src/wormhole/accounts.rs: pay_wormhole_fee, post_message"]}
{"id": "C80", "title": "Symbolic addresses stand for the bytes the code derives, and are told apart by them", "statement": "Give every symbolic address of the model its bytes, by Solana's derivation (seeds, bump search, hash, curve test). Then each account of manager and transceivers is derived by exactly the program and from exactly the seeds of the code, associated token accounts from wallet, token program and mint, lookup tables from authority and slot; the search returns the largest bump whose hash is off the curve, and that bump derives the address again; no derived address is a point of the curve. Two different symbolic addresses with the same bytes, and two different messages with the same bytes, exhibit two of the strings hashed for these very addresses that have the same hash, or a name in use that is the hash of one of them (impossible for points of the curve), provided the finitely many names in use are distinct 32-byte strings.", "quantifier": "every hash and curve test, every assignment of bytes to keys and programs, every pair of addresses and of messages, every chain id, every nesting of derived addresses", "why_tests_cant": "addresses are derived from unboundedly many parameters and from each other; tests derive a few and cannot show that no two purposes, programs or parameters meet", "anchors": ["solana/programs/example-native-token-transfers/src/instructions/initialize.rs: Initialize", "solana/programs/example-native-token-transfers/src/instructions/transfer.rs: Transfer", "solana/programs/example-native-token-transfers/src/instructions/redeem.rs: Redeem", "solana/programs/example-native-token-transfers/src/instructions/luts.rs: InitializeLut", "solana/programs/example-native-token-transfers/src/transceivers/wormhole/instructions/receive_message.rs: ReceiveMessage", "solana/programs/ntt-transceiver/src/wormhole/instructions/release_outbound.rs: ReleaseOutbound"]}
{"id": "C81", "title": "The quoter touches only the accounts it is given", "statement": "A call of the relay quoter with any list of accounts and privileges and any data changes only accounts passed as writable and nothing of other programs, depends only on the accounts passed, and depends on signatures only in that a missing one leads to refusal. Its effect is always that of one of the quoter's modelled instructions with the signatures passed, and every modelled instruction that succeeds can be called in this way. Calls without shared writable accounts commute, also a quoter call and a call of the manager or transceiver.", "quantifier": "every account list, privilege assignment, instruction data and quoter state; every instruction of the quoter", "why_tests_cant": "tests pass the accounts that the client library derives and in one order; a forgotten `mut`, an unpinned account or a read of something not passed shows only on account lists nobody tries", "anchors": ["solana/programs/ntt-quoter/src/processor/admin.rs: Initialize, SetAssistant, SetFeeRecipient, RegisterChain, RegisterNtt, DeregisterNtt", "solana/programs/ntt-quoter/src/processor/request_relay.rs: RequestRelay", "solana/programs/ntt-quoter/src/processor/close_relay.rs: CloseRelay", "solana/programs/ntt-quoter/src/processor/update_prices.rs: UpdateSolPrice, UpdateChainPrices, UpdateChainParams", "solana/programs/ntt-quoter/src/lib.rs: ntt_quoter"]}
{"id": "C82", "title": "Calls of the quoter mean what its published interface says", "statement": "Every call of the quoter that succeeds is, by its data, one of the functions of the published IDL and does what that function does with the accounts passed under the IDL's names; every account listed was passed with at least the privileges listed; passing exactly the listed accounts and privileges would have had the same result; the names of derived and recorded accounts (instance, chain, registered deployment, request, fee recipient, program data, system program) stand for exactly those; and the optional assistant is removed exactly by the program's own id or the default key in its place.", "quantifier": "every call with any list of accounts, any privileges and any data; for the derived accounts in every reachable state of the quoter", "why_tests_cant": "tests build calls with the generated client and so never separate the data, the positions and the privileges", "anchors": ["solana/ts/idl/3_0_0/json/ntt_quoter.json", "solana/programs/ntt-quoter/src/processor/admin.rs: Initialize, SetAssistant, SetFeeRecipient, RegisterChain, RegisterNtt, DeregisterNtt", "solana/programs/ntt-quoter/src/processor/request_relay.rs: RequestRelay", "solana/programs/ntt-quoter/src/processor/close_relay.rs: CloseRelay", "solana/programs/ntt-quoter/src/processor/update_prices.rs: UpdateSolPrice, UpdateChainPrices, UpdateChainParams", "solana/programs/ntt-quoter/src/lib.rs: ntt_quoter"]}
{"id": "C83", "title": "Governance messages to the manager mean what they say, and suffice", "statement": "A successful governance submission makes the call of one posted governance message; if that message is addressed to the manager or the stand-alone transceiver, its bytes are the data of one function of the program's published interface, the function is executed with exactly the accounts and signatures the message lists (placeholders replaced, privileges of repeated accounts joined), and only accounts the message marks as writable change. Settings of a deployment owned by governance change through such a message only if it is an administrative function with governance passed as owner and marked as a signer. Conversely, for every administrative instruction the owner could execute there is a message that executes it, submittable by anyone who pays.", "quantifier": "every governance message, submission, account list, map from bytes to accounts, reachable state and administrative instruction", "why_tests_cant": "Tests submit a few fixed messages; here the message bytes, account lists with repetitions and placeholders, states and callers are arbitrary, and the existence of a message for every administrative action is a claim about all instructions.", "anchors": ["solana/programs/wormhole-governance/src/instructions/governance.rs", "solana/programs/example-native-token-transfers/src/lib.rs", "solana/programs/example-native-token-transfers/src/instructions/admin.rs", "solana/programs/ntt-transceiver/src/lib.rs"]}
{"id": "C84", "title": "Governance action bytes round trip", "statement": "Writing a governance action and reading the result gives the action back, and one byte is written, the announced size.", "quantifier": "every governance action and trailing bytes", "why_tests_cant": "the repository's only test encodes a whole message with the SolanaCall action", "anchors": ["solana/programs/wormhole-governance/src/instructions/governance.rs: Readable and Writeable for GovernanceAction"]}
{"id": "C85", "title": "The published types describe accounts and instruction data", "statement": "The programs read an account exactly when its data are the account's tag followed by its fields encoded by the types of the generated interface, and what they write is of that form; they run a function on arguments exactly when the data are the tag of its published name followed by the arguments encoded by their published types. Different contents and calls have different descriptions. Every kind of account except the stored transceiver message is published.", "quantifier": "every program, account kind, function, contents, arguments and data", "why_tests_cant": "The TypeScript tests decode a few accounts with this interface; here all account contents, all argument values and arbitrary bytes are compared, including those that must be refused.", "anchors": ["solana/ts/idl/3_0_0/json", "solana/programs/example-native-token-transfers/src/config.rs", "solana/programs/example-native-token-transfers/src/queue", "solana/programs/example-native-token-transfers/src/lib.rs", "solana/programs/ntt-quoter/src/state.rs"]}
{"id": "C86", "title": "Where the programs panic", "statement": "The only panics an instruction of the manager or the transceiver can meet are the unwrapped mint authority of initialize (burning mode, a mint without authority: exactly then) and rate limiter arithmetic when the clock is behind the limiter's last use or within a day of the end of 64-bit time; with a clock that never goes back only the first remains. The quoter panics only when one of the two sums of the fee, or a balance of lamports, exceeds 64 bits; the governance program never does itself; the dummy hook only after 2^64 - 1 calls.", "quantifier": "every deployment, history, state, instruction, account choice and argument", "why_tests_cant": "Absence of overflow and of failing assertions concerns all reachable limiter, bitmap, counter and token values at once; tests only meet a few values and never the extreme ones.", "anchors": ["solana/Cargo.toml", "solana/programs/example-native-token-transfers/src/queue/rate_limit.rs", "solana/programs/example-native-token-transfers/src/instructions/initialize.rs", "solana/programs/example-native-token-transfers/src/instructions/transfer.rs", "solana/programs/example-native-token-transfers/src/bitmap.rs", "solana/programs/ntt-quoter/src/processor/request_relay.rs", "solana/programs/wormhole-governance/src/instructions/governance.rs", "solana/programs/dummy-transfer-hook/src/lib.rs"]}
{"id": "C87", "title": "The surroundings of the programs can do exactly what the platform allows", "statement": "In every reachable state, an operation of the surroundings (the clock, both token programs, the core bridge, the loader, third-party programs), by signers that can sign, succeeds with a given result if and only if a rule of the platform says so: the delegate takes at most what was approved, the holder anything up to the balance, Token-2022 charges the least whole fee that covers the rate, at most the maximum; VAAs carry anything at a new address of the core bridge; third-party programs write anything in new accounts or their own, never at an address derived from the programs.", "quantifier": "every deployment, history, reachable state, signer set and operation of the surroundings", "why_tests_cant": "A test fixes what the other programs do; that nothing the platform allows was left out of the adversary, and nothing added, concerns all operations in all states.", "anchors": ["solana/programs/example-native-token-transfers/src/instructions/transfer.rs", "solana/programs/example-native-token-transfers/src/instructions/release_inbound.rs", "solana/programs/ntt-transceiver/src/wormhole/instructions/receive_message.rs", "solana/programs/ntt-transceiver/src/wormhole/accounts.rs"]}
{"id": "C88", "title": "Reported error numbers tell the truth and are the published ones", "statement": "In every reachable state, an instruction of the manager, a transceiver, the quoter or the governance program that fails with a number of its own does so only if what the number stands for is the case (paused deployments for Paused, a rate limit exceeded for TransferExceedsRateLimit, and so on, each for exactly the instructions it is listed for). The numbers, names and texts are those of the published interface. The manager and the transceivers report all published numbers but five, the quoter all but one, and one of the manager's that it does not publish.", "quantifier": "every deployment, history, reachable state, signer set, instruction and reported error", "why_tests_cant": "A test sees one cause of one error; that no other situation produces the number, and that a number is never produced at all, concerns all states and inputs.", "anchors": ["solana/programs/example-native-token-transfers/src/error.rs", "solana/programs/ntt-quoter/src/error.rs", "solana/programs/wormhole-governance/src/error.rs", "solana/ts/idl/3_0_0/json/example_native_token_transfers.json", "solana/ts/idl/3_0_0/json/ntt_quoter.json", "solana/ts/idl/3_0_0/json/wormhole_governance.json"]}
{"id": "C89", "title": "What surrounds lookup tables and quoter follows exactly the platform's rules", "statement": "An operation of the lookup table program, by signers that can sign, succeeds with a given result if and only if its rules say so: a table is created at the address given by authority and recent slot, paid by any signer; only its authority extends (at most 256 entries in all), freezes (not while empty), deactivates or, once deactivated, closes it; a frozen table has no authority. Beside the quoter's own instructions, lamports move, and its upgrade authority changes, exactly when the holder signs, has them, and the receiver's balance stays within 64 bits.", "quantifier": "every table state, reachable quoter state, signer set and operation", "why_tests_cant": "That nothing the platform allows was left out of the adversary, and nothing added, concerns all operations in all states.", "anchors": ["solana/programs/example-native-token-transfers/src/instructions/luts.rs", "solana/programs/ntt-quoter/src/processor/request_relay.rs", "solana/programs/ntt-quoter/src/processor/close_relay.rs"]}
{"id": "C90", "title": "A hook's extra accounts are listed, found and passed on", "statement": "The example hook writes the 86 bytes of its list of extra accounts exactly as published; seeds and lists are read as written. For every hook and every list whose seeds are not taken from bytes that a transfer changes: if the manager's call of Token-2022 with the resolved remaining accounts is made, then Token-2022 resolves the same accounts with the same privileges among those it was passed, lacks none, and calls the hook with them. The example hook's part of a transfer succeeds if and only if source, mint and destination fit, the privileges are there, and the hook program, its list for the mint, the dummy account of the source's owner and the counter (writable and distinct from the others) are among the remaining accounts; the counter then grows by one.", "quantifier": "every derivation of addresses, hook list, account contents, amount and remaining accounts", "why_tests_cant": "The tests pass one set of remaining accounts for one list; which sets suffice, for every list a hook may publish, is a statement about all of them.", "anchors": ["solana/programs/dummy-transfer-hook/src/lib.rs", "solana/programs/example-native-token-transfers/src/instructions/transfer.rs", "solana/programs/example-native-token-transfers/src/instructions/release_inbound.rs"]}
{"id": "C91", "title": "No account is passed twice where its data matter", "statement": "In every successful instruction of the manager, the transceiver and the quoter, two places of which the function holds a deserialized copy are never filled with one account, with a single exception: a release whose recipient is the manager's own token authority, where the recipient's token account is the custody account. It is the case exactly for that recipient. An account of a program that an instruction rewrites always has exactly one copy, so no write can be lost or overwritten by a stale copy, and no address ever comes to hold accounts of two programs.", "quantifier": "every history, caller-chosen account list and instruction data", "why_tests_cant": "Tests pass the intended accounts; that no choice of duplicated accounts gets through is a statement about all lists of accounts in all reachable states.", "anchors": ["solana/programs/example-native-token-transfers/src/instructions/transfer.rs", "solana/programs/example-native-token-transfers/src/instructions/redeem.rs", "solana/programs/example-native-token-transfers/src/instructions/release_inbound.rs", "solana/programs/example-native-token-transfers/src/instructions/admin.rs", "solana/programs/ntt-quoter/src/processor/request_relay.rs"]}
{"id": "C92", "title": "Solana and EVM read each other's messages alike", "statement": "For every transfer, Solana's encoder and the EVM side's give the same bytes or both refuse. Every transfer, announcement and peer registration a transceiver on Solana ever published is read by the EVM side with the same content and, for transfers, the same hashed bytes. Every message the EVM side would read as a transfer is read by Solana with the same managers, identifier, sender, amount, token, recipient and chain; if it carries no additional payload also with the same transceiver payload and digest and nothing left over; if it carries one, Solana takes it for the transceiver's payload, leaves that one unread, and computes another digest. The strings the EVM side reads as plain transfers are exactly those Solana writes.", "quantifier": "every byte string, message, and every history of the programs on Solana", "why_tests_cant": "The repository compares the two sides on three vectors. Agreement on all messages, and on which strings each side takes, concerns infinitely many byte strings.", "anchors": ["solana/modules/ntt-messages/src/ntt.rs", "solana/modules/ntt-messages/src/ntt_manager.rs", "solana/modules/ntt-messages/src/transceiver.rs", "solana/modules/ntt-messages/src/transceivers/wormhole.rs", "evm/src/libraries/TransceiverStructs.sol", "evm/src/Transceiver/WormholeTransceiver/WormholeTransceiverState.sol"]}
{"id": "C93", "title": "Amounts keep their value between Solana and EVM", "statement": "On 64-bit amounts the EVM side trims as Solana does, except that it gets zero where Solana refuses an exponent of 20 or more; Solana's untrimming is the EVM side's whenever the result fits into 64 bits and the exponent is below 20. What is paid out on either side is worth exactly what was taken on the other if the paying side's token has at least the decimals of the message, and never more otherwise. A transfer from the EVM side with the right decimals set for the peer can be paid out on Solana exactly when its value fits into 64 bits (exponent below 20). The EVM side, with a token of at most 57 decimals, refuses the amount of a transfer from Solana exactly when that amount, brought to eight decimals (or those of its token, if fewer), exceeds 64 bits.", "quantifier": "every amount and all numbers of decimals of tokens and peers", "why_tests_cant": "Two implementations of different widths agree on all inputs or they do not; a fuzzer on one side never runs the other, and the refusals begin at amounts no test uses.", "anchors": ["solana/modules/ntt-messages/src/trimmed_amount.rs:45-115", "solana/programs/example-native-token-transfers/src/transfer.rs", "evm/src/libraries/TrimmedAmount.sol", "evm/src/NttManager/NttManager.sol:228-260", "evm/src/NttManager/NttManager.sol:663-685"]}
{"id": "C94", "title": "The client library and the programs mean the same bytes and addresses", "statement": "Every transfer, announcement and peer registration a transceiver ever published, for a chain the client library knows, is read by the library with the message's content. The strings the library takes for a transfer are exactly the framed messages with an empty transceiver payload and any additional bytes up to the 16-bit length. Whatever both the programs and the library read, they read with the same fields, and both hash the same bytes exactly when the library sees no additional payload, so that exactly then they agree on the inbox item (unless the hash collides). For all arguments the library hashes the bytes of a session authority that the manager hashes, and it derives every account's address from the seeds the programs use. The library's layout for program data fits no program data account, so the quoter's initialization instruction cannot be made by it.", "quantifier": "every byte string, message, transfer argument, address purpose, and every history of the programs", "why_tests_cant": "The client's tests run whole transfers on one deployment. Agreement of two codecs and two derivations concerns all byte strings, and the strings on which the digests part never occur in them.", "anchors": ["sdk/definitions/src/layouts", "sdk/definitions/src/ntt.ts:115-125", "solana/ts/lib/ntt.ts:84-155", "solana/ts/lib/utils.ts:45-111", "solana/ts/lib/quoter.ts:216-240", "solana/modules/ntt-messages/src"]}
{"id": "C95", "title": "What the programs return is what the interface declares", "statement": "A function returns something exactly when the published interface declares it, in an encoding that the declared type's decoder takes completely: the version, the transceiver's type, and whether an outbox item was released. Marking an outbox item returns true exactly when the item's release time has come; then the calling transceiver's bit, which was clear, has been set in that item and no other account has changed. It returns false exactly when it is not yet time, and then nothing has changed. The client chooses interface 3.0.0 for the version returned, for each of its generations that of any minor version, and for no other text one.", "quantifier": "every function, every state and every marking that succeeds, every text as version", "why_tests_cant": "That a flag is true exactly when the state changed is a statement over all states; tests see the two values in one deployment each.", "anchors": ["solana/programs/example-native-token-transfers/src/lib.rs:66-82", "solana/programs/example-native-token-transfers/src/lib.rs:155-157", "solana/programs/example-native-token-transfers/src/instructions/mark_outbox_item_as_released.rs", "solana/programs/ntt-transceiver/src/lib.rs:10-19", "solana/ts/lib/ntt.ts:158-232", "sdk/definitions/src/ntt.ts:132-152"]}
{"id": "C96", "title": "The client library's instructions are what the programs take them for", "statement": "Every instruction the TypeScript library builds for the manager and the transceiver (initialize, lookup table, lock, burn, redeem, receive, both inbound releases, the owner's setters, registration, peer registration, both broadcasts and the outbound release) is, for the program it is sent to, the instruction of that name with the arguments and accounts the library's caller named: for every state in which the fetched configuration is the stored one, every privilege the rest of the transaction adds and every further account behind, the call succeeds exactly when that instruction succeeds, with the same resulting state. Each asks for exactly the signatures of its payer, of the owner where one acts, and of the new outbox item or message account. The library never builds the instruction that hands over the ownership, and none for a lock while it has seen the manager paused.", "quantifier": "every reachable state, configuration, argument and account in range, and every addition to the transaction", "why_tests_cant": "A wrong account order or privilege shows only for the deployment mode, transceiver and transaction in which it matters; the equivalence is over all states and all ways the instruction may be embedded in a transaction.", "anchors": ["solana/ts/lib/ntt.ts:234-842", "solana/ts/sdk/ntt.ts:99-328", "solana/ts/sdk/ntt.ts:723-746", "solana/ts/idl/3_0_0/json", "solana/programs/example-native-token-transfers/src/lib.rs", "solana/programs/ntt-transceiver/src/lib.rs"]}
{"id": "C97", "title": "The client library's transactions do what they are for", "statement": "For every reachable state and every deposit, the library's transfer transaction (approve, lock or burn, release) succeeds exactly when the listed conditions on the state before it hold, none of which is an allowance given earlier; then the sender's associated account has lost exactly the dust-free amount, custody or the supply has changed by it, the outbox item and both limiters are as metered, the message is published and the item marked sent exactly if the limiter allowed it at once, and what is left approved to the one-transfer session is the dust. The redemption transaction (receive, redeem, release) likewise succeeds exactly for a posted message of the registered peers, not received or redeemed before, whose recipient has the associated token account, and pays the recipient exactly if the limiter allows it at once. The transactions that complete a queued transfer, register a transceiver and set a peer transceiver are characterised in the same way. In each nothing else changes.", "quantifier": "every reachable state, message, amount, both modes, both transceivers, and every answer of the surrounding programs", "why_tests_cant": "The tests run each transaction a few times on one deployment with fresh limiters; the exact condition of success, and that nothing else changes, is about all states.", "anchors": ["solana/ts/sdk/ntt.ts:185-328", "solana/ts/sdk/ntt.ts:693-746", "solana/ts/sdk/ntt.ts:790-897", "solana/ts/sdk/ntt.ts:933-1024", "solana/ts/sdk/ntt.ts:1145-1185"]}
{"id": "C98", "title": "The client library's instructions for the quoter are what the quoter takes them for", "statement": "For every reachable state and every argument, the instruction that the client library builds for registering a chain or a manager, deregistering, setting prices, setting or pausing a chain's parameters, setting assistant and fee recipient, or requesting a relay is taken by the quoter for exactly that instruction with these arguments, also with further privileges and accounts from the rest of the transaction, and asks for the signature of exactly the one party concerned. A request naming another chain or manager than the outbox item's is refused. Numbers from 2^53 on are refused by the library. The instructions that close a request or initialize the quoter are never built.", "quantifier": "every reachable state of quoter and manager, all arguments, keys, privileges and further accounts", "why_tests_cant": "The tests build each instruction once with matching arguments and do not close a request or initialize through the library with arbitrary program data.", "anchors": ["solana/ts/lib/quoter.ts:143-167", "solana/ts/lib/quoter.ts:216-410", "solana/ts/lib/utils.ts:73-90"]}
{"id": "C99", "title": "The client library's prices cover what the quoter charges", "statement": "For every reachable state, the library reports relaying to a chain as possible exactly if the chain is registered and its numbers are below 2^53, as impossible exactly if it is not registered, and throws otherwise; it throws for every paused chain. What it says about a relay request is what the request account holds. Its quote is the rent plus the unrounded fee for the same drop-off. With the five percent that the library adds, and an error of one percent for floating-point arithmetic, the quote covers what the quoter charges for the drop-off quoted, in the state quoted from and in every state whose price is not more than four percent higher. The cost in SOL that the library can calculate without the five percent is the quote before they are added, wherever there is a quote; before rounding it covers the charge in the same state, and it is infinite exactly while the price of SOL is 0.", "quantifier": "every reachable state, chain, manager, drop-off, and every rounding within one percent", "why_tests_cant": "The tests quote once with one set of prices and never ask about a paused chain; whether a margin covers the charge for all prices is a statement about all of them.", "anchors": ["solana/ts/lib/quoter.ts:58-140", "solana/ts/lib/quoter.ts:169-214", "solana/ts/sdk/ntt.ts:527-545", "solana/programs/ntt-quoter/src/processor/request_relay.rs"]}
{"id": "C100", "title": "The client library's automatic transfer does what it is for", "statement": "For every reachable state, the library's automatic transfer (approve, lock or burn, release, request the relay) succeeds exactly if the manual transfer would, the limiter lets it out at once and the quoter's conditions hold, and then the message is published, the drop-off is recorded in the request and the charge is moved from the sender to the request. Without a drop-off the library's quote is enough for the quoter. With one, the request asks for the drop-off that was quoted.", "quantifier": "every reachable state, deposit, drop-off and every rounding", "why_tests_cant": "The tests make one automatic transfer without a drop-off; a unit error in the drop-off only shows for others.", "anchors": ["solana/ts/sdk/ntt.ts:527-545", "solana/ts/sdk/ntt.ts:790-897", "solana/ts/lib/quoter.ts:143-167"]}
{"id": "C101", "title": "Compressing a transaction with the lookup table changes nothing about it", "statement": "For every list of instructions and all lookup tables, the version 0 message that the client library compiles is loaded by the runtime as the same instructions, in the same order, with the same programs, data and accounts, where an account may sign or be written exactly if some instruction or the payment of the fee says so; also if the tables have been extended in between. It can be compiled exactly if there are at most 256 accounts, and the message itself lists exactly the signers, the programs called and what no table has. For the library's transfers and redemptions, with the recorded table of any earlier reachable state, the message exists, fits into one packet, and in every later state does what the instructions do.", "quantifier": "every list of instructions, every table, every reachable state and every later one", "why_tests_cant": "The tests compile two shapes of transactions with one table right after it was made; that indices, privileges and limits are right for all accounts and all later tables cannot be seen from that.", "anchors": ["solana/ts/sdk/ntt.ts:878-891", "solana/ts/sdk/ntt.ts:1007-1019", "solana/ts/sdk/ntt.ts:1257-1272", "solana/ts/lib/ntt.ts:871-892", "solana/programs/example-native-token-transfers/src/instructions/luts.rs"]}
{"id": "C102", "title": "The client library's upkeep of the lookup table makes the table complete", "statement": "For every reachable state, the library's check of the lookup table does not throw, and finds nothing to do exactly if a table is recorded that has all thirteen addresses wanted; of these only the core bridge's three can ever be missing from a recorded table. The update that it offers succeeds for any signer at a recent slot with room, and after it nothing is left to do, whatever others recorded before. This stays so until someone records another table.", "quantifier": "every reachable state, signer, slot and every later run", "why_tests_cant": "The tests initialise the table once; tables recorded by others and later states do not occur.", "anchors": ["solana/ts/lib/ntt.ts:277-373", "solana/ts/lib/ntt.ts:871-892", "solana/programs/example-native-token-transfers/src/instructions/luts.rs:42-156"]}
{"id": "C103", "title": "What the client library reads is what the chain holds", "statement": "In every reachable state and for every message, the library's reads of an incoming transfer report it approved exactly if its inbox item exists, and then queued, with recipient, amount and time as stored, or executed, never both. Tracking a transfer ends in the stage it is in, also when resumed from a receipt of earlier, and stages only go forward. Peers, transceiver peers and limits are reported as recorded, and a recorded peer never lacks its limit. The quoted amounts are those that the transfer takes and the destination pays, and a redemption of an amount quoted without a warning is not delayed. The capacity reported as current is the current one. The rate limit duration it reports is the time in which an empty limiter fills up, and the addresses it reports as different are those the chain holds. The owner, pause, mode, threshold and custody it reports are those the programs act upon.", "quantifier": "every reachable state, message, chain and amount, every later run", "why_tests_cant": "The tests read a handful of accounts right after writing them; later times, resumed receipts, accounts created by strangers and all amounts are not covered.", "anchors": ["solana/ts/sdk/ntt.ts:216-228", "solana/ts/sdk/ntt.ts:588-603", "solana/ts/sdk/ntt.ts:1026-1069", "solana/ts/sdk/ntt.ts:1089-1143", "solana/ts/sdk/ntt.ts:1187-1255", "sdk/route/src/manual.ts:101-181", "sdk/route/src/manual.ts:374-421", "sdk/route/src/types.ts:210-228"]}
{"id": "C104", "title": "A configuration that the client library holds on to stays usable", "statement": "The library reads the configuration once and uses it for all later transactions and reports. For every reachable state in which it was read and every later one: mode, threshold, custody and mint are as on the chain, and so are all transactions made, up to the pause. If it was read unpaused, then transfers, redemptions and completions made from it succeed exactly when those from a fresh configuration would, and with the same effect. What the library reports and refuses agrees with the chain at any later time.", "quantifier": "every reachable state, every later run, all arguments", "why_tests_cant": "A test uses an object for seconds and does not pause, unpause or transfer ownership between the first read and the last use.", "anchors": ["solana/ts/sdk/ntt.ts:461-505", "solana/ts/sdk/ntt.ts:574-577", "solana/ts/sdk/ntt.ts:605-607", "solana/ts/lib/ntt.ts:854-859", "solana/ts/sdk/ntt.ts:770-899"]}
{"id": "C105", "title": "Stored bumps are canonical, and checks with them accept only the canonical account", "statement": "Some accounts are checked with the bump stored in them instead of a search for the canonical one (peers and inbound limits in transfers, redemptions and limit changes, transceiver peers on receipt, chains and programs registered with the quoter). In every reachable state every bump field of an account of the programs holds the canonical bump of its address. Hence an account of any address that passes such a check is the one at the canonical address of the seeds checked, unless the two strings hashed are an explicit collision; and no such check refuses a step that would go through without it, so the histories with stored bumps are those of the model without them.", "quantifier": "every reachable state, every hash and curve test, every assignment of keys and program ids, every instruction, every account passed, including accounts that other programs filled with any bytes", "why_tests_cant": "Tests pass the derived accounts; they do not try other accounts of the right type, nor show that no history leaves a bump that is not canonical.", "anchors": ["solana/programs/example-native-token-transfers/src/instructions/transfer.rs: Transfer", "solana/programs/example-native-token-transfers/src/instructions/redeem.rs: Redeem", "solana/programs/example-native-token-transfers/src/instructions/admin.rs: SetPeer, SetInboundLimit", "solana/programs/example-native-token-transfers/src/transceivers/wormhole/instructions/receive_message.rs: ReceiveMessage", "solana/programs/ntt-transceiver/src/wormhole/instructions/receive_message.rs: ReceiveMessage", "solana/programs/ntt-quoter/src/processor/request_relay.rs: RequestRelay", "solana/programs/ntt-quoter/src/processor/admin.rs: RegisterChain, RegisterNtt, DeregisterNtt"]}
{"id": "C106", "title": "Clients that hold an interface of an earlier generation are understood or refused", "statement": "The repository publishes the interfaces of generations 1.0.0 and 2.0.0 beside the current one, and the client library still uses both: 1.0.0 to ask for the version, 2.0.0 for the quoter. For every account type of either, the current programs read an account exactly as that type says. Data that a client makes by either interface are taken for the call meant. The accounts it passes are, place by place and privilege by privilege, those of today's interface, except for three functions of the first generation: both transfers, which are refused in every state whatever is appended, and the payout in burning mode, which is refused in every state and becomes the call of today when the custody is appended.", "quantifier": "both generations, every program, function, argument, account content, state and assignment of accounts to names", "why_tests_cant": "Tests call the programs by the newest interface only; that no call made by an older one is taken for another, or done with accounts exchanged, is about all arguments, accounts and states.", "anchors": ["solana/ts/idl/1_0_0/json/example_native_token_transfers.json", "solana/ts/idl/2_0_0/json/example_native_token_transfers.json", "solana/ts/idl/1_0_0/json/ntt_quoter.json", "solana/ts/idl/2_0_0/json/ntt_quoter.json", "solana/ts/lib/bindings.ts:17-21", "solana/ts/lib/ntt.ts:167-232", "solana/ts/lib/quoter.ts:15-16", "solana/programs/example-native-token-transfers/src/lib.rs", "solana/programs/example-native-token-transfers/src/instructions/transfer.rs: Transfer, TransferBurn, TransferLock", "solana/programs/example-native-token-transfers/src/instructions/release_inbound.rs: ReleaseInbound"]}
{"id": "C107", "title": "The bytes of a transaction the library sends are read as that transaction, and no other bytes are", "statement": "A message the library compiles, with or without lookup table, takes exactly the bytes that the size bound counts. It can be sent in a packet exactly if these are at most 1232, and then the cluster reads from them the same signatures, block hash and message, and loads from it the instructions given, with their data, accounts and privileges. A packet is read as a transaction exactly if it is what the library writes for that transaction, so a transaction has one form as bytes and a packet one reading. Every transfer and every redemption of the library is sent and read so.", "quantifier": "all instructions, lookup tables, keys, signatures and block hashes; all packets; all deployments reachable", "why_tests_cant": "Tests send a few transactions of ordinary size; that no two byte strings stand for one transaction, and that sizes are right at every length, is about all byte strings.", "anchors": ["solana/ts/sdk/ntt.ts:885-893", "solana/ts/sdk/ntt.ts:1012-1021", "solana/ts/lib/ntt.ts:201-207"]}
{"id": "C108", "title": "Whatever a token's extensions do to balances and mints, who may change what, votes, single payout, limits and messages stay as they are", "statement": "Let every token account and every mint be changed, created or removed in any way between two instructions, as Token-2022 extensions outside the modelled ledger can do (permanent delegate, mint closed and made anew, default frozen accounts, interest). Then still: settings change only by the owner, and mint, mode, chain and custody address never; an inbound item is approved only by enough distinct enabled transceivers that delivered its message, its recipient and amount are fixed at the first delivery, it moves only forward, is marked paid at most once, and only when due and unpaused; redemptions and transfers change votes and limiters as specified; each deposit has one item, each item at most one message per transceiver, which states the deposit; publication flags are set only by their transceiver. What does not remain is what rests on balances: custody need not cover the deposits, and if a mint is made anew with other decimals between redemption and release, the units computed before are paid.", "quantifier": "all histories of instructions interleaved with arbitrary changes of the token ledger, all inputs", "why_tests_cant": "The tests use plain mints and one with a hook; extensions that rewrite balances or mints are never exercised, and their combinations with the order of instructions are unbounded.", "anchors": ["solana/programs/example-native-token-transfers/src/instructions/redeem.rs:78-160", "solana/programs/example-native-token-transfers/src/instructions/release_inbound.rs:40-60", "solana/programs/example-native-token-transfers/src/instructions/transfer.rs:60-180", "solana/programs/example-native-token-transfers/src/instructions/initialize.rs:24-100"]}
{"id": "C109", "title": "From the bytes of packets to the state: nothing of the owner's, of a token holder's or of the deployer's changes without a signature of theirs over the bytes of a packet, and what the library sends is run as specified", "statement": "Take packets of arbitrary bytes. A packet is run if it is read as a transaction, every signature is one of the corresponding key for all bytes after the signatures, and its tables are found; its instructions run in order, those of the manager and the transceiver as in C72 and C73, those of any other program in any way that its accounts' signatures permit, calls of the two programs included. Then all states are states of the other properties; every call of the resulting history was signed only by accounts that have a valid signature over the bytes of its packet, or by third-party programs' derived addresses; without a packet signed by the owner or the named successor no setting changes; without a packet signed by the owner of a token account without delegate its balance does not shrink and its owner, mint and delegate stay; without a packet signed by the upgrade authority a program that is not set up stays so. And the packets the library writes for a transfer or a redemption, if signed by the keys they name, are read, accepted and run to the state that the instructions have one after the other.", "quantifier": "all sequences of packets (arbitrary bytes), all tables at each time, all signature schemes, all keys of accounts, all behaviours of other programs", "why_tests_cant": "Tests send well-formed transactions of a local validator, built by the library itself; they cannot range over all bytes nor over what other programs in the same transaction do.", "anchors": ["solana/ts/sdk/ntt.ts:790-897", "solana/ts/sdk/ntt.ts:933-1024", "solana/programs/example-native-token-transfers/src/lib.rs:60-205", "solana/programs/ntt-transceiver/src/lib.rs:1-52"]}
{"id": "C110", "title": "Over any history the limiters bound what is let through at once: what a chain had to give plus one limit per day plus the opposite flow; a peer chain that goes wrong cannot have more paid within a day", "statement": "Take any history between clock readings t0 <= t1 in which the owner does not set the limiter of chain c. The messages of c that are scheduled to be paid at once amount to no more than what the limiter had to give at t0 (what was left and the refill since, at most a full limit), plus one limit per day for t1 - t0, plus what was sent to c at once in the meantime. The same holds for what is sent at once to all chains together, against the outbound limiter and what came in at once. If t1 - t0 is less than a day, the same bound holds for the amounts of all items of messages from c that were not scheduled before and are paid out in this time; with nothing sent to c at once, that is at most two limits. And if the owner pauses the deployment before that day is over and leaves it paused, the bound holds for all that is ever paid for such items. Likewise, of what is deposited here in less than a day, no more is published to other chains in that time by any transceiver than the outbound limiter lets through at once, and no more ever if the owner pauses before the day is over and leaves the deployment paused. All of this holds also when token accounts and mints change in any way between instructions. Packets that neither the owner nor the named successor has signed, with whatever third-party programs in them, come to histories to which these bounds apply.", "quantifier": "all reachable states, all histories from there, all messages and amounts, all clock readings (forwards or back) between t0 and t1, all chains", "why_tests_cant": "The unit tests of the limiter run single operations; what an attacker who controls a peer can take over a day depends on every order of redemptions, transfers, releases and clock readings.", "anchors": ["solana/programs/example-native-token-transfers/src/queue/rate_limit.rs:58-111", "solana/programs/example-native-token-transfers/src/instructions/redeem.rs:106-166", "solana/programs/example-native-token-transfers/src/instructions/transfer.rs:365-402", "solana/programs/example-native-token-transfers/src/instructions/release_inbound.rs:76-192", "solana/programs/example-native-token-transfers/src/queue/outbox.rs:23-43"]}
{"id": "C111", "title": "Within a day custody cannot lose, nor the supply gain, more than what was already waiting plus what the limiters of the peer chains give; after a pause that is all there ever is", "statement": "Take any history of less than a day, between clock readings t0 and t1, in which the owner sets none of the inbound limiters of the chains messages have come from; each of these chains has a limiter when it begins, and no two different messages seen have the same hash. In locking mode the balance of the custody account falls by no more than what is paid for items that had been scheduled before, plus, for each of these chains, what its limiter had to give at t0 and one limit per day for t1 - t0. What is sent out in the meantime makes room for more to come in, but lies in custody itself, so it does not enter. In burning mode the same bounds the growth of the supply, with what holders burn themselves put back. If the owner pauses the deployment before the day is over and leaves it paused, the same bounds hold for any later state. Packets that neither the owner nor the named successor has signed, with whatever third-party programs in them, come to histories to which the bounds apply. A day is the longest time for which there is such a bound: limiters delay and do not refuse (worked case).", "quantifier": "all reachable states, all histories of less than a day from there, all messages from any number of chains, all amounts and orders; for the paused form any histories after the pause without an unpause", "why_tests_cant": "The bound is over all interleavings of redemptions, releases, transfers and clock readings for several chains at once; a test fixes one of them.", "anchors": ["solana/programs/example-native-token-transfers/src/queue/rate_limit.rs:58-111", "solana/programs/example-native-token-transfers/src/instructions/redeem.rs:106-166", "solana/programs/example-native-token-transfers/src/instructions/release_inbound.rs:76-192", "solana/programs/example-native-token-transfers/src/instructions/transfer.rs:86-402"]}
{"id": "C112", "title": "Nobody's transfer is delayed or refused for the limit unless others have used up the limiter by as much, and traffic with one chain does not delay that with another", "statement": "A history in which no transfer goes to chain c, no message of c is delivered and the owner sets neither its peer nor its limit leaves the inbound limiter of c as it is; when the next message of c is due then depends on its amount, the clock and the limiter as it was before. If the clock does not go back and the owner does not set the limiter, then a message of c is delayed only if the messages of c let through at once since any earlier moment, together with the message itself, exceed what the limiter had to give at that moment; and a transfer is queued, or refused with TransferExceedsRateLimit, only if the same holds of transfers let through at once and the outbound limiter. It is queued only if its sender asked for that. Except for refusals, all of this holds also when token accounts and mints change in any way between instructions. Likewise, what is sent to one chain does not delay what is sent to another.", "quantifier": "all reachable states, all histories from there, all messages, transfers and amounts, all chains", "why_tests_cant": "The claim is about the absence of influence of arbitrary traffic of any length; tests exercise one chain and single operations.", "anchors": ["solana/programs/example-native-token-transfers/src/queue/rate_limit.rs:58-111", "solana/programs/example-native-token-transfers/src/instructions/redeem.rs:106-166", "solana/programs/example-native-token-transfers/src/instructions/transfer.rs:365-402"]}
{"id": "C113", "title": "A rate limit of zero is a brake of one day", "statement": "After the owner sets the inbound limit of a chain, or the outbound limit, to zero, the limiter holds nothing. Until the owner sets the limit or the peer of the chain again, nothing of value from it is let through at once, however much is sent to it; each of its messages of positive value that gets scheduled is due exactly a day later; and within any stretch of less than a day nothing of value is paid out for it except what was scheduled before. With an outbound limit of zero a transfer of positive value succeeds only if its sender agreed to wait, its item is due a day later, and of what is deposited within less than a day nothing of value is published meanwhile, however much comes in. Apart from the first sentence, all of this holds also when token accounts and mints change in any way between instructions.", "quantifier": "all reachable states, all histories from there, all chains, messages, transfers and amounts", "why_tests_cant": "The claim is about arbitrary histories after the owner's call, including flows in the other direction that put capacity back; tests set a limit and try single operations.", "anchors": ["solana/programs/example-native-token-transfers/src/queue/rate_limit.rs:58-130", "solana/programs/example-native-token-transfers/src/instructions/admin.rs:285-292", "solana/programs/example-native-token-transfers/src/instructions/admin.rs:320-326", "solana/programs/example-native-token-transfers/src/instructions/redeem.rs:106-166", "solana/programs/example-native-token-transfers/src/instructions/transfer.rs:365-402"]}
{"id": "C114", "title": "Replacing the manager of a chain cuts off the old one, except for what was scheduled before", "statement": "After the owner sets the peer of a chain, it stays what was set until the owner's next such call for the chain. Until then every message delivered from the chain names it as source and a redemption of one that names another manager fails, also of one that was received before; every payout is of an item that was scheduled before, or of a message delivered since, which, if it is from this chain, names the new manager; and every transfer to the chain is addressed to the new manager. The contract whose messages a transceiver takes from a chain stays the same for ever.", "quantifier": "all reachable states, all histories after the owner's call, all chains, messages and transfers", "why_tests_cant": "The claim is about every history after the call; tests set a peer once, before any traffic.", "anchors": ["solana/programs/example-native-token-transfers/src/instructions/admin.rs:205-219", "solana/programs/example-native-token-transfers/src/instructions/redeem.rs:17-166", "solana/programs/example-native-token-transfers/src/instructions/transfer.rs:365-402", "solana/programs/example-native-token-transfers/src/transceivers/wormhole/instructions/admin.rs:19-26"]}
