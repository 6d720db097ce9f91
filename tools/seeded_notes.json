{
 "w4": {
  "tightened": [
   "C64_same_item",
   "C64_no_collision"
  ],
  "note": "before C64 only C11_message_digest failed; C64 now ties the redeemed inbox item to the hashed bytes"
 },
 "w5": {
  "tightened": [
   "C64_same_session"
  ],
  "note": "before C64 only C11_intent_digest failed; C64 now ties the session authority to the hashed bytes"
 },
 "g4": {
  "note": "equivalent program: the edit changes no behaviour, so nothing should fail"
 },
 "s5": {
  "note": "equivalent program: the edited seeds are still injective, so nothing should fail"
 },
 "s1": {
  "note": "the edited seeds differ in length, so the claim still holds of this program; the proof of C14 does not see it"
 },
 "m9": {
  "note": "expected to be equivalent up to the error code: the token program checks the mint again; not proved equivalent"
 },
 "m13": {
  "note": "burning transfers of a positive amount then fail at the balance check"
 },
 "m19": {
  "note": "equivalent on reachable states by C35_threshold_is_one"
 },
 "m21": {
  "note": "masked for messages received by the modelled transceivers, which check the chain themselves; that a property becomes false was not established"
 },
 "m26": {
  "note": "expected to be equivalent on reachable states: threshold one (C35_threshold_is_one) and a redemption has just recorded a vote"
 },
 "m44": {
  "note": "masked by the first check of the sent flag, in the account constraints"
 },
 "m47": {
  "note": "masked by the second check of the sent flag, in outbox_try_release"
 },
 "m51": {
  "note": "masked for messages that reach redemption: the manager checks the chain again"
 },
 "ke5": {
  "note": "only the payer's signature goes unchecked; the C73 statements are expected to stay true, their proofs share the lemma meets_spec that fails"
 },
 "kr5": {
  "note": "ke5 again with C75 in place: C75_privileges is false of this program (a payer that has not signed)"
 },
 "kd3": {
  "note": "expected to be equivalent: data shorter than eight bytes matches no tag; not proved equivalent"
 },
 "kr17": {
  "tightened": [
   "C75_session"
  ],
  "note": "survived, only Example C73_case failed; C75_session was added (see ks17)"
 },
 "ks17": {
  "note": "kr17 again with C75_session in place"
 },
 "ke9": {
  "tightened": [
   "C75_meaning"
  ],
  "note": "only C73_complete failed: nothing tied the data to the effect of a call; C75_meaning does (see kr9)"
 },
 "ke10": {
  "tightened": [
   "C75_meaning"
  ],
  "note": "only C73_complete failed: nothing tied the data to the effect of a call; C75_meaning does (see kr10)"
 },
 "ke11": {
  "tightened": [
   "C75_meaning"
  ],
  "note": "only C73_complete failed: nothing tied the data to the effect of a call; C75_meaning does (see kr11)"
 },
 "ke13": {
  "tightened": [
   "C75_meaning"
  ],
  "note": "only C73_complete failed: nothing tied the data to the effect of a call; C75_meaning does (see kr13)"
 },
 "kr9": {
  "note": "ke9 again with C75 in place"
 },
 "kr10": {
  "note": "ke10 again with C75 in place"
 },
 "kr11": {
  "note": "ke11 again with C75 in place"
 },
 "kr13": {
  "note": "ke13 again with C75 in place"
 },
 "bp6": {
  "tightened": [],
  "note": "No claim is broken: every inbox item of the manager is initialised, so the changed case does not occur."
 },
 "cl1": {
  "tightened": [],
  "note": "The edit changes the arity of a definition, so the facts did not compile; redone as cl30."
 },
 "su7": {
  "tightened": [],
  "note": "The edit changes the arity of a definition, so the facts did not compile; redone as su12."
 },
 "rt3": {
  "tightened": [],
  "note": "Only the example failed in this run; redone as rt6."
 },
 "rt4": {
  "tightened": [],
  "note": "No claim is broken: at most one generation matches, so the order does not matter."
 },
 "su3": {
  "tightened": [],
  "note": "No claim is broken: what was read can be written."
 },
 "up5": {
  "tightened": [],
  "note": "No claim is broken: a shorter instruction stays within the proved bound on the size."
 },
 "aw1": {
  "tightened": [
   "C101_accepted"
  ],
  "note": "Survived a first run; killed after the theorem was strengthened."
 },
 "aw2": {
  "tightened": [
   "C102_wanted"
  ],
  "note": "Survived a first run; killed after the theorem was strengthened."
 },
 "aw3": {
  "tightened": [
   "C90_privileges"
  ],
  "note": "Survived a first run; killed after the theorem was strengthened."
 },
 "aw4": {
  "tightened": [
   "C78_accepts"
  ],
  "note": "Survived a first run; killed after the theorem was strengthened."
 },
 "aw5": {
  "tightened": [
   "C98_initialize"
  ],
  "note": "Survived a first run; killed after the theorem was strengthened."
 },
 "aw6": {
  "tightened": [
   "C94_program_data_written"
  ],
  "note": "Survived a first run; killed after the theorem was strengthened."
 },
 "aw7": {
  "tightened": [
   "C94_program_data_written"
  ],
  "note": "Survived a first run; killed after the theorem was strengthened."
 },
 "aw8": {
  "tightened": [
   "C94_program_data"
  ],
  "note": "Survived a first run; killed after the theorem was strengthened."
 },
 "tx14": {
  "tightened": [
   "C107_sent"
  ],
  "note": "Survived a first run; killed after the theorem was strengthened."
 },
 "rg1": {
  "tightened": [
   "C103_duration"
  ],
  "note": "Survived a mechanical sweep of single-token edits; killed after the theorem was strengthened."
 },
 "rg2": {
  "tightened": [
   "C103_config"
  ],
  "note": "Survived a mechanical sweep of single-token edits; killed after the theorem was strengthened."
 },
 "rg4": {
  "tightened": [
   "C103_addresses"
  ],
  "note": "Survived a mechanical sweep of single-token edits; killed after the theorem was strengthened."
 },
 "rg6": {
  "tightened": [
   "C95_generation"
  ],
  "note": "Survived a mechanical sweep of single-token edits; killed after the theorem was strengthened."
 },
 "rg8": {
  "tightened": [
   "C79_moves"
  ],
  "note": "Survived a mechanical sweep of single-token edits; killed after the theorem was strengthened."
 }
}