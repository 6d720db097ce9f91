{
 "C05": {
  "status": "partial",
  "note": "The statement is false of the code: comparing amounts of different decimals panics (PartialEq asserts equal decimals). Refuted by witness; the exact domain is proved instead."
 },
 "C09": {
  "status": "partial",
  "note": "False of the code: the inner length fields are read and ignored, so a message has 2^32 accepted encodings. Refuted by witness; C08 characterises the accepted strings."
 },
 "C10": {
  "status": "partial",
  "note": "Holds for NativeTokenTransfer and NttManagerMessage; false for TransceiverMessage, WormholeTransceiverInfo and WormholeTransceiverRegistration, where the exact shortfall is proved. The panic condition is proved."
 },
 "C21": {
  "status": "partial",
  "note": "First half proved exactly; the second half (change and change back) is false and refuted by witness."
 },
 "C57": {
  "status": "partial",
  "note": "The statement is false for limits below 86400 base units; refuted for every such limit, with a proved bound on the loss."
 },
 "C35": {
  "status": "proved",
  "note": "In addition C35_threshold_is_one: no instruction changes the threshold, so it is 1 in every deployment."
 },
 "C40": {
  "status": "partial",
  "note": "Recipient, mint, source and all other balances proved exactly; the amount received is the message's amount minus the mint's transfer fee, so 'exactly' is false for mints with a fee (C40_fee_refuted) and proved for all others (fee_of = 0)."
 },
 "C47": {
  "status": "partial",
  "note": "False of the code: set_peer makes a fresh limiter with full capacity. Refuted by witness; C47_partial gives the exact effect of every instruction on the inbound limiter."
 },
 "C44": {
  "status": "proved",
  "note": "Premises spelled out in can_pay: besides the stated ones, 64-bit room in the token accounts, an accepting transfer hook, and in burning mode a recipient other than the program's own authority."
 },
 "C50": {
  "status": "partial",
  "note": "'Exactly max(fee, rent)' is false when lamports were sent to the request's address beforehand (C50_refuted: the payer pays less); everything else proved, and exact for an empty address. C58 gives the exact charge."
 },
 "C60": {
  "status": "partial",
  "note": "False of the code: written_size omits the 32-byte governance program id (C60_refuted); the exact relation is C60_partial. Nothing in the program uses the value."
 },
 "C48": {
  "status": "proved",
  "note": "Network of deployments of this program (same program addresses on every chain); guardians attest only what the core bridge of the named chain recorded; administrators register only the two Wormhole transceivers and only transceivers of the network as peers. Burns by holders and donations to custody only widen the margin."
 },
 "C65": {
  "status": "partial",
  "note": "The exact contents, permanence and availability of the tables are proved; the reading 'every entry is an account of the deployment' is false of the code (C65_only_deployment_refuted), because the fee collector and sequence accounts are unchecked there."
 },
 "C84": {
  "status": "partial",
  "note": "False of the code for Undefined, for which nothing is written though the announced size is 1 (C84_refuted). It holds of the other two actions (C84_partial). The program writes SolanaCall only."
 },
 "C100": {
  "status": "partial",
  "note": "The last sentence is false of the code (C100_dropoff_refuted): the drop-off in wei is handed over where gwei are expected, a billion times too much (C100_dropoff), so requests with a drop-off are refused unless the number of wei is at most the number of gwei allowed. The rest is proved (C100_transfer, C100_no_dropoff)."
 },
 "C103": {
  "status": "partial",
  "note": "The sentence that current capacities are reported is false of the code (C103_current_refuted): what is reported as current is the capacity of the last transfer, a lower bound (C103_capacity_below), so a quote can warn though nothing would be delayed. The rest is proved, if nobody has sent lamports to the address of the item before it exists; then the reads throw (C103_dusted)."
 },
 "C104": {
  "status": "partial",
  "note": "The last sentence is false of the code (C104_follows_refuted): the configuration is never read again (C104_kept), so a pause that ended is still reported and transfers, redemptions and completions are refused for ever (C104_refuses). The rest is proved."
 },
 "C112": {
  "status": "partial",
  "note": "The last sentence is false of the code (C112_outbound_apart_refuted): there is one outbound limiter for all chains, so what goes to one chain delays what goes to another. The rest is proved."
 }
}