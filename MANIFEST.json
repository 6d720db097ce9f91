{
 "claims": [
  {
   "property": "C01",
   "status": "proved",
   "theorems": [
    "C01_trim_exact"
   ],
   "note": ""
  },
  {
   "property": "C02",
   "status": "proved",
   "theorems": [
    "C02_untrim_exact",
    "C02_change_decimals_exact"
   ],
   "note": ""
  },
  {
   "property": "C03",
   "status": "proved",
   "theorems": [
    "C03_remove_dust_greatest",
    "C03_remove_dust_exact",
    "C03_remove_dust_idempotent"
   ],
   "note": ""
  },
  {
   "property": "C04",
   "status": "proved",
   "theorems": [
    "C04_no_value_created"
   ],
   "note": ""
  },
  {
   "property": "C05",
   "status": "partial",
   "theorems": [
    "C05_equality_total_refuted",
    "C05_equality_defined_iff"
   ],
   "note": "The statement is false of the code: comparing amounts of different decimals panics (PartialEq asserts equal decimals). Refuted by witness; the exact domain is proved instead."
  },
  {
   "property": "C06",
   "status": "proved",
   "theorems": [
    "C06_native_token_transfer",
    "C06_manager_message",
    "C06_transceiver_message",
    "C06_transfer_is_lawful_payload",
    "C06_empty_payload",
    "C06_transceiver_info",
    "C06_registration"
   ],
   "note": ""
  },
  {
   "property": "C07",
   "status": "proved",
   "theorems": [
    "C07_transfer_layout",
    "C07_transfer_layout_with_payload",
    "C07_manager_message_layout",
    "C07_transceiver_message_layout",
    "C07_info_layout",
    "C07_registration_layout"
   ],
   "note": ""
  },
  {
   "property": "C08",
   "status": "proved",
   "theorems": [
    "C08_accepts_exactly",
    "C08_agrees_with_encoder",
    "C08_truncated_rejected",
    "C08_wrong_prefix_rejected"
   ],
   "note": ""
  },
  {
   "property": "C09",
   "status": "partial",
   "theorems": [
    "C09_unique_encoding_refuted"
   ],
   "note": "False of the code: the inner length fields are read and ignored, so a message has 2^32 accepted encodings. Refuted by witness; C08 characterises the accepted strings."
  },
  {
   "property": "C10",
   "status": "partial",
   "theorems": [
    "C10_transfer_size",
    "C10_manager_message_size",
    "C10_transceiver_message_size_gap",
    "C10_info_size_gap",
    "C10_registration_size_gap",
    "C10_announced_sizes_refuted",
    "C10_encoding_fails_iff_too_long"
   ],
   "note": "Holds for NativeTokenTransfer and NttManagerMessage; false for TransceiverMessage, WormholeTransceiverInfo and WormholeTransceiverRegistration, where the exact shortfall is proved. The panic condition is proved."
  },
  {
   "property": "C11",
   "status": "proved",
   "theorems": [
    "C11_message_digest",
    "C11_intent_digest"
   ],
   "note": ""
  },
  {
   "property": "C12",
   "status": "proved",
   "theorems": [
    "C12_accessors_agree",
    "C12_wrong_discriminator_rejected",
    "C12_wrong_owner_rejected"
   ],
   "note": ""
  },
  {
   "property": "C13",
   "status": "proved",
   "theorems": [
    "C13_storage_fits",
    "C13_storage_round_trip",
    "C13_kinds_not_confused",
    "C13_unwritten_is_no_kind"
   ],
   "note": ""
  },
  {
   "property": "C14",
   "status": "proved",
   "theorems": [
    "C14_addresses_separated",
    "C14_seeds_within_limits"
   ],
   "note": ""
  },
  {
   "property": "C15",
   "status": "proved",
   "theorems": [
    "C15_get_after_set",
    "C15_sequences",
    "C15_out_of_range",
    "C15_is_empty"
   ],
   "note": ""
  },
  {
   "property": "C16",
   "status": "proved",
   "theorems": [
    "C16_distinct_enabled",
    "C16_at_most_enabled"
   ],
   "note": ""
  },
  {
   "property": "C17",
   "status": "proved",
   "theorems": [
    "C17_capacity_in_range",
    "C17_monotone",
    "C17_full_after_a_day",
    "C17_linear"
   ],
   "note": ""
  },
  {
   "property": "C18",
   "status": "proved",
   "theorems": [
    "C18_consume_iff_fits"
   ],
   "note": ""
  },
  {
   "property": "C19",
   "status": "proved",
   "theorems": [
    "C19_throughput",
    "C19_throughput_constant",
    "C19_twice_per_day"
   ],
   "note": ""
  },
  {
   "property": "C20",
   "status": "proved",
   "theorems": [
    "C20_refill_exact"
   ],
   "note": ""
  },
  {
   "property": "C21",
   "status": "partial",
   "theorems": [
    "C21_set_limit_exact",
    "C21_change_and_back_refuted"
   ],
   "note": "First half proved exactly; the second half (change and change back) is false and refuted by witness."
  },
  {
   "property": "C22",
   "status": "proved",
   "theorems": [
    "C22_no_panic",
    "C22_clock_backwards_refused"
   ],
   "note": ""
  },
  {
   "property": "C23",
   "status": "proved",
   "theorems": [
    "C23_one_config",
    "C23_created_by_upgrade_authority",
    "C23_identity_never_changes"
   ],
   "note": ""
  },
  {
   "property": "C24",
   "status": "proved",
   "theorems": [
    "C24_settings_change_only_by_owner"
   ],
   "note": ""
  },
  {
   "property": "C25",
   "status": "proved",
   "theorems": [
    "C25_ownership_moves",
    "C25_new_owner_consents",
    "C25_offers_come_from_owner",
    "C25_every_owner_was_named",
    "C25_owner_can_cancel",
    "C25_owner_keeps_powers"
   ],
   "note": ""
  },
  {
   "property": "C26",
   "status": "proved",
   "theorems": [
    "C26_authority_follows_owner",
    "C26_locked_against_upgrades",
    "C26_no_second_transfer"
   ],
   "note": ""
  },
  {
   "property": "C27",
   "status": "proved",
   "theorems": [
    "C27_unique",
    "C27_ids_consecutive",
    "C27_permanent",
    "C27_registration",
    "C27_not_twice",
    "C27_not_beyond_128",
    "C27_failure_changes_nothing"
   ],
   "note": ""
  },
  {
   "property": "C28",
   "status": "proved",
   "theorems": [
    "C28_paused_blocks",
    "C28_paused_keeps_value",
    "C28_pause_does_not_stop_the_rest",
    "C28_only_owner_pauses"
   ],
   "note": ""
  },
  {
   "property": "C29",
   "status": "proved",
   "theorems": [
    "C29_lock",
    "C29_fee_refused"
   ],
   "note": ""
  },
  {
   "property": "C30",
   "status": "proved",
   "theorems": [
    "C30_burn",
    "C30_fee_refused"
   ],
   "note": ""
  },
  {
   "property": "C31",
   "status": "proved",
   "theorems": [
    "C31_owner_approved",
    "C31_arguments_fixed",
    "C31_total"
   ],
   "note": ""
  },
  {
   "property": "C32",
   "status": "proved",
   "theorems": [
    "C32_limits",
    "C32_refused_without_consent"
   ],
   "note": ""
  },
  {
   "property": "C33",
   "status": "proved",
   "theorems": [
    "C33_once",
    "C33_conditions",
    "C33_release_time_fixed"
   ],
   "note": ""
  },
  {
   "property": "C34",
   "status": "proved",
   "theorems": [
    "C34_states_a_deposit",
    "C34_one_deposit"
   ],
   "note": ""
  },
  {
   "property": "C35",
   "status": "proved",
   "theorems": [
    "C35_votes",
    "C35_same_message",
    "C35_threshold_is_one"
   ],
   "note": "In addition C35_threshold_is_one: no instruction changes the threshold, so it is 1 in every deployment."
  },
  {
   "property": "C36",
   "status": "proved",
   "theorems": [
    "C36_origin",
    "C36_every_redemption"
   ],
   "note": ""
  },
  {
   "property": "C37",
   "status": "proved",
   "theorems": [
    "C37_once",
    "C37_custody_out",
    "C37_supply_up"
   ],
   "note": ""
  },
  {
   "property": "C38",
   "status": "proved",
   "theorems": [
    "C38_forward"
   ],
   "note": ""
  },
  {
   "property": "C39",
   "status": "proved",
   "theorems": [
    "C39_redeem",
    "C39_delay"
   ],
   "note": ""
  },
  {
   "property": "C40",
   "status": "partial",
   "theorems": [
    "C40_message",
    "C40_unlock",
    "C40_mint",
    "C40_fee_refuted"
   ],
   "note": "Recipient, mint, source and all other balances proved exactly; the amount received is the message's amount minus the mint's transfer fee, so 'exactly' is false for mints with a fee (C40_fee_refuted) and proved for all others (fee_of = 0)."
  },
  {
   "property": "C41",
   "status": "proved",
   "theorems": [
    "C41_replay_fails",
    "C41_no_effect"
   ],
   "note": ""
  },
  {
   "property": "C42",
   "status": "proved",
   "theorems": [
    "C42_custody",
    "C42_only_payouts"
   ],
   "note": ""
  },
  {
   "property": "C43",
   "status": "proved",
   "theorems": [
    "C43_supply",
    "C43_only_messages",
    "C43_transfer_custody",
    "C43_release_custody"
   ],
   "note": ""
  },
  {
   "property": "C44",
   "status": "proved",
   "theorems": [
    "C44_unlock",
    "C44_mint",
    "C44_publish"
   ],
   "note": "Premises spelled out in can_pay: besides the stated ones, 64-bit room in the token accounts, an accepting transfer hook, and in burning mode a recipient other than the program's own authority."
  },
  {
   "property": "C45",
   "status": "proved",
   "theorems": [
    "C45_authentic",
    "C45_once",
    "C45_never_changes",
    "C45_receive"
   ],
   "note": ""
  },
  {
   "property": "C46",
   "status": "proved",
   "theorems": [
    "C46_only_its_transceiver",
    "C46_flag_is_publication"
   ],
   "note": ""
  },
  {
   "property": "C47",
   "status": "partial",
   "theorems": [
    "C47_refuted",
    "C47_partial"
   ],
   "note": "False of the code: set_peer makes a fresh limiter with full capacity. Refuted by witness; C47_partial gives the exact effect of every instruction on the inbound limiter."
  },
  {
   "property": "C48",
   "status": "proved",
   "theorems": [
    "C48_value",
    "C48_custody",
    "C48_backed",
    "C48_not_shared",
    "C48_paid_once",
    "C48_in_flight"
   ],
   "note": "Network of deployments of this program (same program addresses on every chain); guardians attest only what the core bridge of the named chain recorded; administrators register only the two Wormhole transceivers and only transceivers of the network as peers. Burns by holders and donations to custody only widen the margin."
  },
  {
   "property": "C49",
   "status": "proved",
   "theorems": [
    "C49_fee",
    "C49_request"
   ],
   "note": ""
  },
  {
   "property": "C50",
   "status": "partial",
   "theorems": [
    "C50_partial",
    "C50_refuted",
    "C50_live"
   ],
   "note": "'Exactly max(fee, rent)' is false when lamports were sent to the request's address beforehand (C50_refuted: the payer pays less); everything else proved, and exact for an empty address. C58 gives the exact charge."
  },
  {
   "property": "C51",
   "status": "proved",
   "theorems": [
    "C51_origin",
    "C51_flag_is_published",
    "C51_one_open"
   ],
   "note": ""
  },
  {
   "property": "C52",
   "status": "proved",
   "theorems": [
    "C52_instance",
    "C52_registry",
    "C52_requests",
    "C52_money"
   ],
   "note": ""
  },
  {
   "property": "C53",
   "status": "proved",
   "theorems": [
    "C53_round_trip",
    "C53_accepted",
    "C53_fails",
    "C53_encoding"
   ],
   "note": ""
  },
  {
   "property": "C54",
   "status": "proved",
   "theorems": [
    "C54_authorised",
    "C54_once",
    "C54_effect",
    "C54_live"
   ],
   "note": ""
  },
  {
   "property": "C55",
   "status": "proved",
   "theorems": [
    "C55_votes",
    "C55_separate"
   ],
   "note": ""
  },
  {
   "property": "C56",
   "status": "proved",
   "theorems": [
    "C56_atomic",
    "C56_reachable"
   ],
   "note": ""
  },
  {
   "property": "C57",
   "status": "partial",
   "theorems": [
    "C57_rounding_loss_bounded",
    "C57_starvation",
    "C57_zero_operations_harmless_refuted"
   ],
   "note": "The statement is false for limits below 86400 base units; refuted for every such limit, with a proved bound on the loss."
  },
  {
   "property": "C58",
   "status": "proved",
   "theorems": [
    "C58_charge"
   ],
   "note": ""
  },
  {
   "property": "C59",
   "status": "proved",
   "theorems": [
    "C59_owner",
    "C59_made",
    "C59_no_assistant"
   ],
   "note": ""
  },
  {
   "property": "C60",
   "status": "partial",
   "theorems": [
    "C60_refuted",
    "C60_partial"
   ],
   "note": "False of the code: written_size omits the 32-byte governance program id (C60_refuted); the exact relation is C60_partial. Nothing in the program uses the value."
  },
  {
   "property": "C61",
   "status": "proved",
   "theorems": [
    "C61_privileges"
   ],
   "note": ""
  },
  {
   "property": "C62",
   "status": "proved",
   "theorems": [
    "C62_info",
    "C62_peer",
    "C62_no_contradiction",
    "C62_nothing_else"
   ],
   "note": ""
  },
  {
   "property": "C63",
   "status": "proved",
   "theorems": [
    "C63_transfer",
    "C63_info",
    "C63_peer"
   ],
   "note": ""
  },
  {
   "property": "C64",
   "status": "proved",
   "theorems": [
    "C64_same_item",
    "C64_same_session",
    "C64_no_collision"
   ],
   "note": ""
  },
  {
   "property": "C65",
   "status": "partial",
   "theorems": [
    "C65_tables",
    "C65_recorded",
    "C65_append_only",
    "C65_one_step",
    "C65_anyone",
    "C65_only_deployment_refuted"
   ],
   "note": "The exact contents, permanence and availability of the tables are proved; the reading 'every entry is an account of the deployment' is false of the code (C65_only_deployment_refuted), because the fee collector and sequence accounts are unchecked there."
  },
  {
   "property": "C66",
   "status": "proved",
   "theorems": [
    "C66_initialize",
    "C66_set_paused",
    "C66_set_peer",
    "C66_register",
    "C66_outbound_limit",
    "C66_inbound_limit",
    "C66_transfer_ownership",
    "C66_transfer_ownership_one_step",
    "C66_claim_ownership",
    "C66_transceiver_peer",
    "C66_receive"
   ],
   "note": ""
  },
  {
   "property": "C67",
   "status": "proved",
   "theorems": [
    "C67_transfer_lock",
    "C67_transfer_burn",
    "C67_redeem",
    "C67_release_unlock",
    "C67_release_mint",
    "C67_publish",
    "C67_mark",
    "C67_broadcast_info",
    "C67_broadcast_peer"
   ],
   "note": ""
  },
  {
   "property": "C68",
   "status": "proved",
   "theorems": [
    "C68_initialize",
    "C68_set_fee_recipient",
    "C68_set_assistant",
    "C68_register_chain",
    "C68_register_ntt",
    "C68_deregister_ntt",
    "C68_update_sol_price",
    "C68_update_chain_prices",
    "C68_update_chain_params",
    "C68_request_relay",
    "C68_close_relay",
    "C68_conserved"
   ],
   "note": ""
  },
  {
   "property": "C69",
   "status": "proved",
   "theorems": [
    "C69_monotone",
    "C69_rounding"
   ],
   "note": ""
  },
  {
   "property": "C70",
   "status": "proved",
   "theorems": [
    "C70_submit"
   ],
   "note": ""
  },
  {
   "property": "C71",
   "status": "proved",
   "theorems": [
    "C71_unchanged",
    "C71_message",
    "C71_pause"
   ],
   "note": ""
  },
  {
   "property": "C72",
   "status": "proved",
   "theorems": [
    "C72_dispatch",
    "C72_unambiguous",
    "C72_tags"
   ],
   "note": ""
  },
  {
   "property": "C73",
   "status": "proved",
   "theorems": [
    "C73_writes",
    "C73_reads",
    "C73_signers",
    "C73_step",
    "C73_complete"
   ],
   "note": ""
  },
  {
   "property": "C74",
   "status": "proved",
   "theorems": [
    "C74_commute"
   ],
   "note": ""
  },
  {
   "property": "C75",
   "status": "proved",
   "theorems": [
    "C75_meaning",
    "C75_privileges",
    "C75_least",
    "C75_fixed",
    "C75_session",
    "C75_names"
   ],
   "note": ""
  },
  {
   "property": "C76",
   "status": "proved",
   "theorems": [
    "C76_delivery",
    "C76_unsigned",
    "C76_funded",
    "C76_home"
   ],
   "note": ""
  },
  {
   "property": "C77",
   "status": "proved",
   "theorems": [
    "C77_supply",
    "C77_total",
    "C77_shares",
    "C77_room",
    "C77_delivery",
    "C77_everywhere",
    "C77_covered"
   ],
   "note": ""
  },
  {
   "property": "C78",
   "status": "proved",
   "theorems": [
    "C78_refines",
    "C78_exact",
    "C78_only",
    "C78_outbound",
    "C78_inbound",
    "C78_ledger",
    "C78_no_receipt",
    "C78_no_payment",
    "C78_counter",
    "C78_one_mint",
    "C78_accepts"
   ],
   "note": ""
  },
  {
   "property": "C79",
   "status": "proved",
   "theorems": [
    "C79_refines",
    "C79_bill",
    "C79_exact",
    "C79_transfer_cost",
    "C79_free",
    "C79_payers",
    "C79_moves",
    "C79_kept",
    "C79_custody",
    "C79_exempt",
    "C79_prefund",
    "C79_conserved"
   ],
   "note": ""
  },
  {
   "property": "C80",
   "status": "proved",
   "theorems": [
    "C80_found",
    "C80_manager",
    "C80_transceiver",
    "C80_associated",
    "C80_lookup_table",
    "C80_regular",
    "C80_distinct",
    "C80_keys",
    "C80_messages",
    "C80_no_key"
   ],
   "note": ""
  },
  {
   "property": "C81",
   "status": "proved",
   "theorems": [
    "C81_writes",
    "C81_reads",
    "C81_signers",
    "C81_step",
    "C81_complete",
    "C81_commute",
    "C81_beside"
   ],
   "note": ""
  },
  {
   "property": "C82",
   "status": "proved",
   "theorems": [
    "C82_meaning",
    "C82_privileges",
    "C82_least",
    "C82_settled",
    "C82_names",
    "C82_assistant"
   ],
   "note": ""
  },
  {
   "property": "C83",
   "status": "proved",
   "theorems": [
    "C83_meaning",
    "C83_linked",
    "C83_settings",
    "C83_able",
    "C83_anyone"
   ],
   "note": ""
  },
  {
   "property": "C84",
   "status": "partial",
   "theorems": [
    "C84_read",
    "C84_refuted",
    "C84_partial"
   ],
   "note": "False of the code for Undefined, for which nothing is written though the announced size is 1 (C84_refuted). It holds of the other two actions (C84_partial). The program writes SolanaCall only."
  },
  {
   "property": "C85",
   "status": "proved",
   "theorems": [
    "C85_accounts",
    "C85_written",
    "C85_which",
    "C85_kinds",
    "C85_calls",
    "C85_faithful"
   ],
   "note": ""
  },
  {
   "property": "C86",
   "status": "proved",
   "theorems": [
    "C86_manager",
    "C86_authority",
    "C86_forward",
    "C86_quoter",
    "C86_governance",
    "C86_hook"
   ],
   "note": ""
  },
  {
   "property": "C87",
   "status": "proved",
   "theorems": [
    "C87_rules",
    "C87_only",
    "C87_signers"
   ],
   "note": ""
  },
  {
   "property": "C88",
   "status": "proved",
   "theorems": [
    "C88_manager",
    "C88_quoter",
    "C88_governance",
    "C88_numbers",
    "C88_distinct",
    "C88_manager_reports",
    "C88_quoter_reports"
   ],
   "note": ""
  },
  {
   "property": "C89",
   "status": "proved",
   "theorems": [
    "C89_tables",
    "C89_only",
    "C89_can"
   ],
   "note": ""
  },
  {
   "property": "C90",
   "status": "proved",
   "theorems": [
    "C90_list",
    "C90_seeds",
    "C90_round",
    "C90_privileges",
    "C90_passes_on",
    "C90_exact"
   ],
   "note": ""
  },
  {
   "property": "C91",
   "status": "proved",
   "theorems": [
    "C91_one_kind",
    "C91_distinct",
    "C91_exception",
    "C91_rewritten",
    "C91_quoter"
   ],
   "note": ""
  },
  {
   "property": "C92",
   "status": "proved",
   "theorems": [
    "C92_same_bytes",
    "C92_to_evm",
    "C92_from_evm",
    "C92_digest",
    "C92_both",
    "C92_published_transfer",
    "C92_published_info",
    "C92_published_peer"
   ],
   "note": ""
  },
  {
   "property": "C93",
   "status": "proved",
   "theorems": [
    "C93_trim",
    "C93_untrim",
    "C93_from_evm",
    "C93_from_evm_iff",
    "C93_to_evm"
   ],
   "note": ""
  },
  {
   "property": "C94",
   "status": "proved",
   "theorems": [
    "C94_reads",
    "C94_writes",
    "C94_from_programs",
    "C94_both",
    "C94_inbox_item",
    "C94_session",
    "C94_addresses",
    "C94_published_transfer",
    "C94_published_info",
    "C94_published_peer",
    "C94_no_program_data",
    "C94_program_data",
    "C94_program_data_written"
   ],
   "note": ""
  },
  {
   "property": "C95",
   "status": "proved",
   "theorems": [
    "C95_declared",
    "C95_mark",
    "C95_version",
    "C95_generation"
   ],
   "note": ""
  },
  {
   "property": "C96",
   "status": "proved",
   "theorems": [
    "C96_setup",
    "C96_transfer",
    "C96_release_inbound",
    "C96_messages",
    "C96_manager",
    "C96_transceiver",
    "C96_ownership",
    "C96_signers"
   ],
   "note": ""
  },
  {
   "property": "C97",
   "status": "proved",
   "theorems": [
    "C97_transfer",
    "C97_redeem",
    "C97_redeem_needs",
    "C97_complete",
    "C97_register",
    "C97_set_peer"
   ],
   "note": ""
  },
  {
   "property": "C98",
   "status": "proved",
   "theorems": [
    "C98_staff",
    "C98_owner",
    "C98_request",
    "C98_request_wrong",
    "C98_numbers",
    "C98_never",
    "C98_initialize",
    "C98_signers"
   ],
   "note": ""
  },
  {
   "property": "C99",
   "status": "proved",
   "theorems": [
    "C99_enabled",
    "C99_paused",
    "C99_yes",
    "C99_requested",
    "C99_quote",
    "C99_covers",
    "C99_covers_now",
    "C99_cost",
    "C99_cost_of_quote",
    "C99_cost_bound"
   ],
   "note": ""
  },
  {
   "property": "C100",
   "status": "partial",
   "theorems": [
    "C100_transfer",
    "C100_no_dropoff",
    "C100_dropoff",
    "C100_dropoff_refuted"
   ],
   "note": "The last sentence is false of the code (C100_dropoff_refuted): the drop-off in wei is handed over where gwei are expected, a billion times too much (C100_dropoff), so requests with a drop-off are refused unless the number of wei is at most the number of gwei allowed. The rest is proved (C100_transfer, C100_no_dropoff)."
  },
  {
   "property": "C101",
   "status": "proved",
   "theorems": [
    "C101_same",
    "C101_accepted",
    "C101_compiles",
    "C101_static",
    "C101_size",
    "C101_transfer",
    "C101_redeem"
   ],
   "note": ""
  },
  {
   "property": "C102",
   "status": "proved",
   "theorems": [
    "C102_needed",
    "C102_wanted",
    "C102_only_bridge",
    "C102_heals",
    "C102_stays"
   ],
   "note": ""
  },
  {
   "property": "C103",
   "status": "partial",
   "theorems": [
    "C103_item",
    "C103_nothing",
    "C103_dusted",
    "C103_track",
    "C103_resumed",
    "C103_forward",
    "C103_peer",
    "C103_transceiver_peer",
    "C103_outbox",
    "C103_addresses",
    "C103_duration",
    "C103_config",
    "C103_fixed",
    "C103_capacity_below",
    "C103_quote",
    "C103_no_warning",
    "C103_current_refuted"
   ],
   "note": "The sentence that current capacities are reported is false of the code (C103_current_refuted): what is reported as current is the capacity of the last transfer, a lower bound (C103_capacity_below), so a quote can warn though nothing would be delayed. The rest is proved, if nobody has sent lamports to the address of the item before it exists; then the reads throw (C103_dusted)."
  },
  {
   "property": "C104",
   "status": "partial",
   "theorems": [
    "C104_same",
    "C104_transfer",
    "C104_redeem",
    "C104_complete",
    "C104_kept",
    "C104_refuses",
    "C104_follows_refuted"
   ],
   "note": "The last sentence is false of the code (C104_follows_refuted): the configuration is never read again (C104_kept), so a pause that ended is still reported and transfers, redemptions and completions are refused for ever (C104_refuses). The rest is proved."
  },
  {
   "property": "C105",
   "status": "proved",
   "theorems": [
    "C105_canonical",
    "C105_pinned",
    "C105_complete",
    "C105_histories"
   ],
   "note": ""
  },
  {
   "property": "C106",
   "status": "proved",
   "theorems": [
    "C106_accounts",
    "C106_data",
    "C106_which",
    "C106_lists",
    "C106_quoter",
    "C106_transfers",
    "C106_mint"
   ],
   "note": ""
  },
  {
   "property": "C107",
   "status": "proved",
   "theorems": [
    "C107_sent",
    "C107_loaded",
    "C107_read",
    "C107_one",
    "C107_transfer",
    "C107_redeem"
   ],
   "note": ""
  },
  {
   "property": "C108",
   "status": "proved",
   "theorems": [
    "C108_more",
    "C108_settings",
    "C108_identity",
    "C108_votes",
    "C108_origin",
    "C108_once",
    "C108_forward",
    "C108_due",
    "C108_redeem",
    "C108_limits",
    "C108_published_once",
    "C108_published",
    "C108_one_deposit",
    "C108_flags",
    "C108_custody",
    "C108_decimals"
   ],
   "note": ""
  },
  {
   "property": "C109",
   "status": "proved",
   "theorems": [
    "C109_reachable",
    "C109_history",
    "C109_settings",
    "C109_tokens",
    "C109_deployment",
    "C109_transfer",
    "C109_redeem"
   ],
   "note": ""
  },
  {
   "property": "C110",
   "status": "proved",
   "theorems": [
    "C110_inbound",
    "C110_outbound",
    "C110_paid",
    "C110_two_limits",
    "C110_paused",
    "C110_sent",
    "C110_sent_paused",
    "C110_wild_inbound",
    "C110_wild_outbound",
    "C110_wild_paused",
    "C110_wild_paid",
    "C110_wild_sent",
    "C110_wild_sent_paused",
    "C110_packets"
   ],
   "note": ""
  },
  {
   "property": "C111",
   "status": "proved",
   "theorems": [
    "C111_custody",
    "C111_supply",
    "C111_custody_paused",
    "C111_supply_paused",
    "C111_packets"
   ],
   "note": ""
  },
  {
   "property": "C112",
   "status": "partial",
   "theorems": [
    "C112_apart",
    "C112_schedule",
    "C112_inbound",
    "C112_outbound",
    "C112_refused",
    "C112_outbound_apart_refuted",
    "C112_wild_apart",
    "C112_wild_schedule",
    "C112_wild_inbound",
    "C112_wild_outbound"
   ],
   "note": "The last sentence is false of the code (C112_outbound_apart_refuted): there is one outbound limiter for all chains, so what goes to one chain delays what goes to another. The rest is proved."
  },
  {
   "property": "C113",
   "status": "proved",
   "theorems": [
    "C113_set",
    "C113_set_outbound",
    "C113_inbound",
    "C113_due",
    "C113_paid",
    "C113_outbound",
    "C113_sent",
    "C113_wild_inbound",
    "C113_wild_due",
    "C113_wild_paid",
    "C113_wild_outbound",
    "C113_wild_sent"
   ],
   "note": ""
  },
  {
   "property": "C114",
   "status": "proved",
   "theorems": [
    "C114_set",
    "C114_in",
    "C114_refused",
    "C114_paid",
    "C114_out",
    "C114_emitter"
   ],
   "note": ""
  }
 ]
}