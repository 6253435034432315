{
 "claims": [
  {
   "property": "C01",
   "status": "proved",
   "theorems": [
    "C01_monotone",
    "C01_signed_clamp_refuted",
    "C01_signed_exact",
    "C01_signed_overflow_value",
    "C01_unsigned_saturates"
   ],
   "note": "Signed operations return an unspecified clamp on overflow: the exact value is given by C01_signed_overflow_value and the naive clamp is refuted."
  },
  {
   "property": "C02",
   "status": "proved",
   "theorems": [
    "C02_overflow_reported_exactly"
   ],
   "note": "Every overflow-reporting operation of math/overflow.go."
  },
  {
   "property": "C03",
   "status": "proved",
   "theorems": [
    "C03_read_inside",
    "C03_read_window",
    "C03_two_gib_refuted"
   ],
   "note": "For memories below 2 GiB; refuted for larger ones (C03_two_gib_refuted)."
  },
  {
   "property": "C04",
   "status": "proved",
   "theorems": [
    "C04_load_back",
    "C04_store",
    "C04_two_gib_refuted"
   ],
   "note": "For memories that stay below 2 GiB; refuted for larger ones (C04_two_gib_refuted)."
  },
  {
   "property": "C05",
   "status": "proved",
   "theorems": [
    "C05_call_decoded",
    "C05_vector_decoded"
   ],
   "note": ""
  },
  {
   "property": "C06",
   "status": "partial",
   "theorems": [
    "C06_count_wrap_refuted",
    "C06_decoder_rejects_partial",
    "C06_indirect_calls_refuted"
   ],
   "note": "The decoder rejects exactly the unreadable vectors while 4*n fits 31 bits; false when the count wraps and false for all APIs that ignore the decoder error (both refuted with witnesses)."
  },
  {
   "property": "C07",
   "status": "proved",
   "theorems": [
    "C07_alloc_fresh",
    "C07_read_value",
    "C07_sequences",
    "C07_write_only_destination"
   ],
   "note": "Allocation, every arithmetic/bitwise/assignment operation, reads, and sequences of them."
  },
  {
   "property": "C08",
   "status": "partial",
   "theorems": [
    "C08_api_caller_restored",
    "C08_callee_starts_empty",
    "C08_caller_restored",
    "C08_same_context_refuted"
   ],
   "note": "Calls on the destination context and transactions, any nesting and any outcome; on the same context (and executeReadOnly) the store is shared with the caller (refuted with a witness)."
  },
  {
   "property": "C09",
   "status": "proved",
   "theorems": [
    "C09_arguments",
    "C09_canonical",
    "C09_decoders",
    "C09_load_range",
    "C09_signed_roundtrip",
    "C09_small_roundtrip",
    "C09_unsigned_roundtrip"
   ],
   "note": ""
  },
  {
   "property": "C10",
   "status": "partial",
   "theorems": [
    "C10_pairs_partial",
    "C10_timelock_refuted",
    "C10_unsigned_pair_refuted"
   ],
   "note": "Holds for the signed and 64-bit pairs; the unsigned big integer pair and the time lock pair lose the sign (refuted)."
  },
  {
   "property": "C11",
   "status": "proved",
   "theorems": [
    "C11_euclidean_laws",
    "C11_fails_safely",
    "C11_truncated_laws"
   ],
   "note": "Truncated and Euclidean laws for all operands and aliasings; failing operations keep every handle."
  },
  {
   "property": "C12",
   "status": "proved",
   "theorems": [
    "C12_initially_node_value",
    "C12_read_gives_cell",
    "C12_read_length",
    "C12_sequences",
    "C12_write_takes_effect"
   ],
   "note": "API calls one by one, and all sequences of reads and write attempts."
  },
  {
   "property": "C13",
   "status": "proved",
   "theorems": [
    "C13_refund_bound_needed_refuted",
    "C13_status_price_refund"
   ],
   "note": "Refund exact while the counter stays below 2^63; beyond that it wraps (refuted with a witness)."
  },
  {
   "property": "C14",
   "status": "partial",
   "theorems": [
    "C14_partial",
    "C14_same_length_refuted"
   ],
   "note": "False for a different value of the same length (C14_same_length_refuted); proved when the lengths differ and storing is not cheaper than persisting."
  },
  {
   "property": "C15",
   "status": "partial",
   "theorems": [
    "C15_call",
    "C15_create",
    "C15_run",
    "C15_store_fails",
    "C15_timelock_refuted"
   ],
   "note": "Proved for every execution and every transaction output for reserved keys and VM-protected keys other than the cells of time locks and pending async data (protected_key), assuming the node built-ins leave the cell; a time lock on a key with the protected prefix writes such a key (C15_timelock_refuted), so the full statement is false there."
  },
  {
   "property": "C16",
   "status": "partial",
   "theorems": [
    "C16_lock_forged_refuted",
    "C16_partial"
   ],
   "note": "False: the cells are named by a suffix, so the ordinary call writes them (refuted); holds for keys without that suffix."
  },
  {
   "property": "C17",
   "status": "proved",
   "theorems": [
    "C17_clear",
    "C17_get",
    "C17_locked_iff",
    "C17_sequences",
    "C17_set_then_get"
   ],
   "note": "Set/get/locked/clear, sequences of locks on any keys."
  },
  {
   "property": "C18",
   "status": "proved",
   "theorems": [
    "C18_api",
    "C18_call",
    "C18_create",
    "C18_run"
   ],
   "note": "For running contracts, single API calls and transaction outputs; built-in functions of the node are assumed to leave the cell (builtins_leave)."
  },
  {
   "property": "C19",
   "status": "proved",
   "theorems": [
    "C19_allowed",
    "C19_denied"
   ],
   "note": "Own means the account whose storage is in use."
  },
  {
   "property": "C20",
   "status": "partial",
   "theorems": [
    "C20_api_partial",
    "C20_nested_refuted",
    "C20_run_partial"
   ],
   "note": "Proved at any nesting depth when no further executeReadOnly call is made inside; with a nested executeReadOnly call it is false (C20_nested_refuted)."
  },
  {
   "property": "C21",
   "status": "partial",
   "theorems": [
    "C21_api_partial",
    "C21_transfer_refuted",
    "C21_value_refuted"
   ],
   "note": "False: transfers are not blocked in read-only mode and the value of the caller's own call is passed on (C21_transfer_refuted, C21_value_refuted). Proved: API calls change balances only by the transfers they record."
  },
  {
   "property": "C22",
   "status": "partial",
   "theorems": [
    "C22_api_partial",
    "C22_call_partial",
    "C22_call_refuted",
    "C22_create_partial",
    "C22_run_partial"
   ],
   "note": "Proved for every execution and every transaction output unless a failed deployment removes an account that already had value; in that case value is destroyed (C22_call_refuted). Built-in functions of the node are assumed to conserve value."
  },
  {
   "property": "C23",
   "status": "proved",
   "theorems": [
    "C23_call",
    "C23_create",
    "C23_negative",
    "C23_run",
    "C23_transfer"
   ],
   "note": "Built-in functions of the node are assumed not to take from the account, transaction values not negative."
  },
  {
   "property": "C24",
   "status": "partial",
   "theorems": [
    "C24_call_partial",
    "C24_call_refuted",
    "C24_create_partial",
    "C24_debit_partial",
    "C24_run_partial"
   ],
   "note": "Proved for every execution in which no contract uses executeOnDestContextByCaller; with it a contract spends the money of its caller (C24_call_refuted)."
  },
  {
   "property": "C25",
   "status": "partial",
   "theorems": [
    "C25_builtin_refuted",
    "C25_dest_partial"
   ],
   "note": "Proved for every call that does not name a built-in function. For built-in functions it is false: their output stays when the contract called afterwards fails (C25_builtin_refuted)."
  },
  {
   "property": "C26",
   "status": "partial",
   "theorems": [
    "C26_dest_partial",
    "C26_refuted"
   ],
   "note": "A failed nested call changes no code in the caller's output (C26_dest_partial); over a whole transaction the claim is false because the set of updated accounts is not restored (C26_refuted)."
  },
  {
   "property": "C27",
   "status": "proved",
   "theorems": [
    "C27_dest"
   ],
   "note": "For calls that do not name a built-in function; that the callee's transfers begin with the caller's is stated for addresses at which no contract can be deployed."
  },
  {
   "property": "C28",
   "status": "partial",
   "theorems": [
    "C28_api_restores_frame",
    "C28_dest_restores_frame",
    "C28_host_ok_invariant",
    "C28_same_restores_frame",
    "C28_snapshots_after_panic_refuted"
   ],
   "note": "Everything for every nested call and API function, any outcome; the stack of world snapshots is proved restored unless the host panics, and refuted for panics."
  },
  {
   "property": "C29",
   "status": "proved",
   "theorems": [
    "C29_fuel",
    "C29_fuel_irrelevant",
    "C29_ten_instances",
    "C29_too_deep_fails"
   ],
   "note": ""
  },
  {
   "property": "C30",
   "status": "partial",
   "theorems": [
    "C30_call_partial",
    "C30_create_partial",
    "C30_failed"
   ],
   "note": "The equation for the outputs of successful transactions (typed_gas: amounts are not negative, as in uint64). That no gas remains in failing outputs is C30_failed; that the whole gas counts as used is a convention of the output without accounts."
  },
  {
   "property": "C31",
   "status": "partial",
   "theorems": [
    "C31_api_partial",
    "C31_refuted"
   ],
   "note": "Proved for every API function that does not deploy a contract, assuming built-in functions hand on no more gas than they were given. False for createContract (C31_refuted)."
  },
  {
   "property": "C32",
   "status": "partial",
   "theorems": [
    "C32_async_partial",
    "C32_call_partial",
    "C32_create_partial",
    "C32_refuted"
   ],
   "note": "False: the gas attached by transferValueExecute to another shard is not deducted (C32_refuted). Proved: for asynchronous calls, limit and lock and the price of the step are exactly the gas the frame had, and none is left (C32_async_partial); all transfers of a successful transaction together do not carry more than it was handed minus what is left (C32_call_partial, C32_create_partial)."
  },
  {
   "property": "C33",
   "status": "partial",
   "theorems": [
    "C33_dest_partial",
    "C33_handed_partial",
    "C33_refuted",
    "C33_same_partial"
   ],
   "note": "Proved: handed gas is at most the gas left, it is deducted and the unused part given back; contracts that ran and failed cost all they were handed. False for calls that fail before the callee is started, which cost nothing (C33_refuted)."
  },
  {
   "property": "C34",
   "status": "partial",
   "theorems": [
    "C34_partial",
    "C34_refuted"
   ],
   "note": "Proved with the code size the runtime remembers; after a nested call that is the size of another contract (C34_refuted)."
  },
  {
   "property": "C35",
   "status": "partial",
   "theorems": [
    "C35_local_partial",
    "C35_refuted"
   ],
   "note": "Proved for callbacks in the same shard; false for callbacks arriving as transactions with locked gas (C35_refuted)."
  },
  {
   "property": "C36",
   "status": "partial",
   "theorems": [
    "C36_overwritten",
    "C36_refuted"
   ],
   "note": "False: a nested call overwrites the refund of its caller (C36_overwritten for every call, C36_refuted for a transaction)."
  },
  {
   "property": "C37",
   "status": "proved",
   "theorems": [
    "C37_call",
    "C37_contract_invalid",
    "C37_contract_not_found",
    "C37_create",
    "C37_function_not_found",
    "C37_out_of_gas",
    "C37_refuted",
    "C37_stopped"
   ],
   "note": "Assuming that the node's built-in functions report failures as errors; without that the claim is false (C37_refuted). Besides the general theorems, the class is derived from its cause: no gas, no code, code that does not compile, missing function, and the reason for which the function stopped. Panics recovered by the host give no output."
  },
  {
   "property": "C38",
   "status": "partial",
   "theorems": [
    "C38_answers_right",
    "C38_base",
    "C38_errors_is_partial",
    "C38_host",
    "C38_is",
    "C38_last",
    "C38_single_refuted"
   ],
   "note": "The method Is is proved exact and total for every chain of wraps. errors.Is is proved exact whenever it answers, and total for wrappers holding two errors or more; on an error wrapped once it panics when the error asked for is absent (C38_single_refuted)."
  },
  {
   "property": "C39",
   "status": "partial",
   "theorems": [
    "C39_create_refuted",
    "C39_deploy_partial",
    "C39_deploy_starts_partial",
    "C39_nested_upgrade_partial",
    "C39_same_upgrade_partial",
    "C39_upgrade_partial",
    "C39_upgrade_starts_partial"
   ],
   "note": "Proved for direct deployments, direct upgrades and upgrades by contracts. False for deployments by contracts (C39_create_refuted): CreateNewContract checks only the code size."
  },
  {
   "property": "C40",
   "status": "proved",
   "theorems": [
    "C40_module_names",
    "C40_name_rejected_otherwise",
    "C40_name_valid_iff"
   ],
   "note": ""
  },
  {
   "property": "C41",
   "status": "partial",
   "theorems": [
    "C41_direct_partial",
    "C41_nested_partial",
    "C41_nested_same_partial",
    "C41_refuted"
   ],
   "note": "Proved: transactions cannot call init or callBack; nested calls cannot call init. False for nested calls of callBack (C41_refuted)."
  },
  {
   "property": "C42",
   "status": "partial",
   "theorems": [
    "C42_by_caller_refuted",
    "C42_frozen",
    "C42_frozen_create",
    "C42_not_a_contract_refuted",
    "C42_permitted_partial",
    "C42_permitted_same_partial",
    "C42_refused",
    "C42_starts_partial",
    "C42_starts_same_partial"
   ],
   "note": "Upgrades within an execution succeed and start code only with the permission of the caller named in the call; otherwise they are refused with no effect (C42_refused). A contract that is not upgradeable keeps its code in every execution (C42_frozen). The caller named in the call can be the caller of the contract that asks (C42_by_caller_refuted), and the account need not have code (C42_not_a_contract_refuted)."
  },
  {
   "property": "C43",
   "status": "partial",
   "theorems": [
    "C43_cache_partial",
    "C43_call_partial",
    "C43_dest_partial",
    "C43_poisoned_refuted",
    "C43_same_partial",
    "C43_saved_unverified",
    "C43_stale_refuted"
   ],
   "note": "The running module is the compilation of the current code whenever the cache is off or holds nothing wrong for the address. Executions do not keep the cache right: an upgrade followed by a call in one transaction gives stale code (C43_stale_refuted) or stores new code under the old hash (C43_poisoned_refuted). New code is saved before it is verified, so refused code stays (C43_saved_unverified)."
  },
  {
   "property": "C44",
   "status": "partial",
   "theorems": [
    "C44_builtin_elsewhere",
    "C44_callback_refuted",
    "C44_here",
    "C44_outgoing",
    "C44_self_refuted",
    "C44_token_answer",
    "C44_unparsable"
   ],
   "note": "The routing decision and all effects of every mode are exact. It depends on the code at the destination and, for token transfers, on the caller too. Calls to oneself and calls from callbacks are not rejected (C44_self_refuted, C44_callback_refuted)."
  },
  {
   "property": "C45",
   "status": "partial",
   "theorems": [
    "C45_input",
    "C45_representation_refuted",
    "C45_sent"
   ],
   "note": "The callback input is exact, and so is the outgoing answer. The return code is a number for callbacks executed at once and a name for those sent elsewhere (C45_representation_refuted)."
  },
  {
   "property": "C46",
   "status": "partial",
   "theorems": [
    "C46_drain_refuted",
    "C46_idle",
    "C46_last_partial",
    "C46_local_stops",
    "C46_stuck",
    "C46_unexpected"
   ],
   "note": "Exact for no pending call, unexpected answers, and the last pending call when the waiting contract is elsewhere. With several pending calls no answer changes anything (C46_stuck, C46_drain_refuted); when the waiting contract is here the host stops (C46_local_stops). The callback of a context is never run."
  },
  {
   "property": "C47",
   "status": "proved",
   "theorems": [
    "C47_error_refuted",
    "C47_never_more",
    "C47_order",
    "C47_shares"
   ],
   "note": "Exact amounts, success condition and order independence. Only the kind of the error depends on the map order (C47_error_refuted)."
  },
  {
   "property": "C48",
   "status": "partial",
   "theorems": [
    "C48_callback_refuted",
    "C48_exports",
    "C48_gas_added",
    "C48_gas_of_others",
    "C48_gas_set",
    "C48_merge",
    "C48_missing",
    "C48_remove_code",
    "C48_storage",
    "C48_total_gas"
   ],
   "note": "Proved for every loop over output accounts, gas by account, storage updates and exports, each written as a loop over an arbitrary visiting order, and (C47_order) for the gas of asynchronous calls. False for the choice of the callback function when two contexts wait for the same contract (C48_callback_refuted: the output of a transaction depends on the map order)."
  },
  {
   "property": "C49",
   "status": "proved",
   "theorems": [
    "C49_call_data_roundtrip",
    "C49_parse_error",
    "C49_parse_exact",
    "C49_parse_iff",
    "C49_text"
   ],
   "note": "The parser is an external library, modelled from its documented behaviour."
  },
  {
   "property": "C50",
   "status": "partial",
   "theorems": [
    "C50_consecutive",
    "C50_dialogue",
    "C50_gas_schedule_refuted",
    "C50_intact",
    "C50_long_refuted",
    "C50_once",
    "C50_rejects",
    "C50_replay_refuted",
    "C50_stray_answer",
    "C50_unheard_refuted"
   ],
   "note": "framing, ordering within a dialogue and whole dialogues proved for any marshalizer that gives back what it encodes; refuted: replay across dialogues, gas schedule changes, five kinds of hook questions, messages of 4 GB"
  },
  {
   "property": "C51",
   "status": "partial",
   "theorems": [
    "C51_refuted",
    "C51_round_trip_partial",
    "C51_stable_partial",
    "C51_valid"
   ],
   "note": "round trip proved for every value whose strings can stand in quotes as they are, whose maps have distinct keys and which is not a bare boolean, hence for everything the parser returns; refuted for the rest (C51_refuted)"
  },
  {
   "property": "C52",
   "status": "partial",
   "theorems": [
    "C52_accepts_partial",
    "C52_ends",
    "C52_exact",
    "C52_refuted",
    "C52_unambiguous"
   ],
   "note": "the texts taken are characterised exactly by a grammar (C52_exact); JSON proper is taken except strings ending in a backslash and bare booleans; refuted: junk behind list elements, leading commas and repeated keys are dropped silently"
  },
  {
   "property": "C53",
   "status": "partial",
   "theorems": [
    "C53_address_back_partial",
    "C53_address_back_refuted",
    "C53_binary",
    "C53_code_back_partial",
    "C53_code_back_refuted",
    "C53_concat",
    "C53_crash_partial",
    "C53_crash_refuted",
    "C53_decimal",
    "C53_denotes",
    "C53_ends",
    "C53_hex",
    "C53_map_order",
    "C53_negative_refuted",
    "C53_no_hint_refuted",
    "C53_number_back_partial",
    "C53_number_back_refuted",
    "C53_number_value",
    "C53_short_address_refuted",
    "C53_signed",
    "C53_signed_width",
    "C53_string",
    "C53_string_back_partial",
    "C53_string_back_refuted",
    "C53_subtree",
    "C53_unambiguous",
    "C53_width"
   ],
   "note": "what an expression denotes is characterised exactly (C53_denotes) and notation by notation; subtrees and map order too. Text from bytes and back proved for numbers, bar-free strings, addresses and short code; refuted for the other values and for all values without a hint. A signed width with nothing behind it crashes the interpreter (C53_crash_refuted)"
  },
  {
   "property": "C54",
   "status": "partial",
   "theorems": [
    "C54_before_v3_refuted",
    "C54_failed_refuted",
    "C54_nonce_partial",
    "C54_reentrant_refuted"
   ],
   "note": "Address and nonce after a successful deployment are exact, relative to the nonce after the construction. False for re-entrant deployments, before version 3, and for failed deployments (refuted)."
  },
  {
   "property": "C55",
   "status": "proved",
   "theorems": [
    "C55_guarded_slice",
    "C55_inverse",
    "C55_leb128",
    "C55_pad"
   ],
   "note": ""
  },
  {
   "property": "C56",
   "status": "partial",
   "theorems": [
    "C56_call_returns_partial",
    "C56_executing_call_partial",
    "C56_index_refuted",
    "C56_negative_index_panics"
   ],
   "note": "every API call that runs no other code returns for all arguments, if an unchecked index is not negative and nothing has 2 GiB or more; calls that run other code return if it does. Refuted: four calls panic on every negative index"
  },
  {
   "property": "C57",
   "status": "partial",
   "theorems": [
    "C57_frame_kept",
    "C57_handle_readers",
    "C57_memory_readers",
    "C57_nested_caller",
    "C57_nested_frame",
    "C57_number_readers",
    "C57_token_name_refuted",
    "C57_transaction_frame"
   ],
   "note": "Proved for getCaller, getCallValue, the token and argument readers and the big-integer readers, in every transaction and nested call. False for getCallValueTokenName, which never delivers the token name (C57_token_name_refuted)."
  },
  {
   "property": "C58",
   "status": "partial",
   "theorems": [
    "C58_call",
    "C58_create_partial",
    "C58_deploy_refuted",
    "C58_fresh_start_partial",
    "C58_idle_partial",
    "C58_upgrade_partial"
   ],
   "note": "Proved of calls: any two histories, the same node, the same result, effects and events. False of deployments and upgrades (refuted): an asynchronous call in a constructor locks gas for the size of the code last looked up by an earlier transaction; proved of them when that size is the same."
  },
  {
   "property": "C59",
   "status": "proved",
   "theorems": [
    "C59_gas_left",
    "C59_nft_nonce",
    "C59_nft_nonce_denied",
    "C59_queries_answer"
   ],
   "note": "Every function that runs no other code and asks for something; failing questions (unreadable memory) are C03 and C56."
  },
  {
   "property": "C60",
   "status": "partial",
   "theorems": [
    "C60_balance_shown_partial",
    "C60_unknown_account_refuted"
   ],
   "note": "Proved for accounts on the chain whose recorded balance is the node one; for an address without an account 0 is shown whatever was moved to it (C60_unknown_account_refuted)."
  },
  {
   "property": "C61",
   "status": "proved",
   "theorems": [
    "C61_events_appended",
    "C61_results_appended"
   ],
   "note": "All functions that report a result or an event."
  },
  {
   "property": "C62",
   "status": "partial",
   "theorems": [
    "C62_negative_refuted",
    "C62_number_loaded",
    "C62_number_stored",
    "C62_round_trip_partial"
   ],
   "note": "64-bit integers and non-negative big integers come back exactly; a negative big integer loses its sign silently (C62_negative_refuted)."
  },
  {
   "property": "C63",
   "status": "partial",
   "theorems": [
    "C63_add_refuted",
    "C63_async_context_refuted",
    "C63_price_paid_partial",
    "C63_subtraction_price"
   ],
   "note": "Proved for every API call except the deploying ones (their gas can grow, C31_refuted); thirteen big-integer functions are charged the entry of subtraction instead of their own (C63_add_refuted) and two async functions nothing (C63_async_context_refuted)."
  },
  {
   "property": "C64",
   "status": "partial",
   "theorems": [
    "C64_hook_partial",
    "C64_moved_refuted",
    "C64_nothing_refuted",
    "C64_output_partial",
    "C64_percent_refuted",
    "C64_pipe_partial",
    "C64_revert_refuted"
   ],
   "note": "Proved for questions that reach the node, errors with a text without percent signs, results that are an output or an error, outputs with accounts and cells under their own keys, and messages the marshalizer gives back; refuted for the rest: failed reverts look successful (C64_revert_refuted), error texts are used as formats (C64_percent_refuted), missing texts and outputs look like success (C64_nothing_refuted)."
  },
  {
   "property": "C65",
   "status": "partial",
   "theorems": [
    "C65_history",
    "C65_made",
    "C65_prices",
    "C65_shown_refuted",
    "C65_taken",
    "C65_twice_refuted",
    "C65_wide_refuted"
   ],
   "note": "Proved for schedules that give no entry twice; false for the schedule shown (C65_shown_refuted: a rejected one is shown), for instruction prices of 2^32 and more (C65_wide_refuted: the low 32 bits are charged) and for schedules with an entry given twice in other letters (C65_twice_refuted: the price depends on the map order)."
  },
  {
   "property": "C66",
   "status": "proved",
   "theorems": [
    "C66_asked",
    "C66_tokens"
   ],
   "note": "For transferValue and the context calls other than executeOnDestContext and the token transfers the data or function does not name a built-in function. Deployments and upgrades from the code of another contract are not covered here."
  },
  {
   "property": "C67",
   "status": "proved",
   "theorems": [
    "C67_api",
    "C67_run",
    "C67_transaction"
   ],
   "note": "For transactions: calls other than callbacks and upgrades."
  },
  {
   "property": "C68",
   "status": "proved",
   "theorems": [
    "C68_check_state_exact"
   ],
   "note": "For protobuf decoders that decode 64-bit nonces. The last of several declarations of one key, token or nonce counts."
  },
  {
   "property": "C69",
   "status": "partial",
   "theorems": [
    "C69_frozen_refuted",
    "C69_more_tokens_refuted",
    "C69_nothing_to_check_refuted",
    "C69_owner_refuted"
   ],
   "note": "False: the owner (C69_owner_refuted), \"+\" among tokens (C69_more_tokens_refuted) and the frozen flag (C69_frozen_refuted) are read from the file and ignored; a step without accounts panics (C69_nothing_to_check_refuted). What is compared is C68."
  },
  {
   "property": "C70",
   "status": "proved",
   "theorems": [
    "C70_log_hash_refuted",
    "C70_result_exact"
   ],
   "note": "All that takes part in the check; a declared hash of the logs does not (C70_log_hash_refuted)."
  },
  {
   "property": "C71",
   "status": "partial",
   "theorems": [
    "C71_failed_partial",
    "C71_failed_refuted",
    "C71_no_snapshot_left",
    "C71_username_refuted"
   ],
   "note": "Proved for machines that never revert to the snapshot of the start and whose built-in functions write only storage; false without either condition (C71_failed_refuted, C71_username_refuted). A nested call that fails first thing in a transaction makes such a revert."
  },
  {
   "property": "C72",
   "status": "proved",
   "theorems": [
    "C72_call_input",
    "C72_deploy_input",
    "C72_deploy_tokens_refuted",
    "C72_money",
    "C72_output_applied",
    "C72_query_input",
    "C72_reward",
    "C72_transfer",
    "C72_unaffordable"
   ],
   "note": "Transfers and rewards in full (C72_transfer, C72_reward, C72_unaffordable). Accounts and money for every type of transaction, for machines whose built-in functions write only storage; input and storage for calls, deployments and queries without tokens. A deployment with tokens panics (C72_deploy_tokens_refuted)."
  },
  {
   "property": "C73",
   "status": "partial",
   "theorems": [
    "C73_failed_query_partial",
    "C73_query_refuted"
   ],
   "note": "Proved for queries that fail; a query that succeeds keeps what it wrote (C73_query_refuted)."
  },
  {
   "property": "C74",
   "status": "partial",
   "theorems": [
    "C74_revert_restores_partial",
    "C74_revert_twice_refuted"
   ],
   "note": "Proved when the last snapshot shows the present storage, as it does right after a save or at the start; after an earlier revert it does not, and a second revert takes back too much (C74_revert_twice_refuted)."
  },
  {
   "property": "C75",
   "status": "partial",
   "theorems": [
    "C75_last_nonce_refuted",
    "C75_no_nonce_refuted",
    "C75_royalties_refuted",
    "C75_same_key_refuted",
    "C75_set_then_check_partial"
   ],
   "note": "Proved for accounts whose storage has no reserved keys, whose token instances have amounts, no metadata without a nonce and 32-bit royalties, whose last nonce is 0 without instances, and whose token keys can be told apart; false without each condition on tokens (C75_last_nonce_refuted, C75_no_nonce_refuted, C75_same_key_refuted, C75_royalties_refuted)."
  },
  {
   "property": "C76",
   "status": "partial",
   "theorems": [
    "C76_empty_creator_refuted",
    "C76_last_nonce_refuted",
    "C76_no_sender_refuted",
    "C76_panic_refuted",
    "C76_plus_refuted",
    "C76_rewritten_partial",
    "C76_same_run_partial",
    "C76_shard_refuted",
    "C76_uri_refuted"
   ],
   "note": "Proved for every file whose scenario meets RewriteSpec.kept. The writer loses the shard of an account, the last nonce of a token in short form and demands for empty metadata, writes the creator for the URI, panics on incomplete logs and on checkState without accounts, and writes a transaction without sender so that it cannot be read (C76_*_refuted)."
  },
  {
   "property": "C77",
   "status": "partial",
   "theorems": [
    "C77_set_state",
    "C77_tokens_partial"
   ],
   "note": "Accounts, blocks, hashes and addresses proved in full (C77_set_state); the tokens for the accounts of C75 only, whose declarations can all be stored (C77_tokens_partial; the witnesses of C75 show that the others lose tokens)."
  },
  {
   "property": "C78",
   "status": "proved",
   "theorems": [
    "C78_order_refuted",
    "C78_read"
   ],
   "note": "Equivalence between the reader and a declarative reading of the document (C78_read). C78_order_refuted shows what the last sentence is for: with the two fields of a step swapped, the reader dereferences a nil transaction."
  },
  {
   "property": "C79",
   "status": "partial",
   "theorems": [
    "C79_check_gas_refuted",
    "C79_in_place_partial"
   ],
   "note": "Proved for files that agree on whether gas is checked (C79_in_place_partial). The setting of the file referred to stays in force for the rest of the file that refers to it (C79_check_gas_refuted)."
  },
  {
   "property": "C80",
   "status": "partial",
   "theorems": [
    "C80_directory_partial",
    "C80_schedule_refuted",
    "C80_unreadable_refuted"
   ],
   "note": "Proved for directories that can be read and scenarios that ask for the same gas schedule (C80_directory_partial). Only the first schedule of a run is used, so that a scenario can pass that fails alone (C80_schedule_refuted); a directory that is missing or unreadable is a success (C80_unreadable_refuted)."
  },
  {
   "property": "C81",
   "status": "proved",
   "theorems": [
    "C81_right_answer"
   ],
   "note": "When a process has to be started, the compiled code kept by the hook is cleared first, as the code does."
  },
  {
   "property": "C82",
   "status": "partial",
   "theorems": [
    "C82_exit_refuted",
    "C82_next_partial",
    "C82_start_refuted",
    "C82_undisturbed"
   ],
   "note": "Undisturbed histories are answered in full (C82_undisturbed); after a request that is lost although nothing disturbed it the next one is answered (C82_next_partial). A process that exits between requests costs one request (C82_exit_refuted); a start that fails once makes every later operation panic (C82_start_refuted)."
  },
  {
   "property": "C83",
   "status": "proved",
   "theorems": [
    "C83_accounted",
    "C83_history",
    "C83_nothing_left",
    "C83_own_instance",
    "C83_transaction"
   ],
   "note": "Without warm instances (for these see C87)."
  },
  {
   "property": "C84",
   "status": "partial",
   "theorems": [
    "C84_address_refuted",
    "C84_key_refuted",
    "C84_outcome_refuted",
    "C84_query",
    "C84_query_writes",
    "C84_refused",
    "C84_session_partial",
    "C84_text",
    "C84_two_accounts_refuted",
    "C84_world_name_refuted"
   ],
   "note": "Proved for worlds named by text without slashes, outcomes without slashes, and accounts with addresses, storage keys and call data that are UTF-8 (C84_session_partial; C84_text: nothing else survives). Binary addresses and storage keys are mangled (C84_address_refuted, C84_two_accounts_refuted, C84_key_refuted), a world whose name is not text forgets (C84_world_name_refuted), and an outcome may overwrite a world (C84_outcome_refuted)."
  },
  {
   "property": "C85",
   "status": "partial",
   "theorems": [
    "C85_kept",
    "C85_total_partial",
    "C85_value_refuted"
   ],
   "note": "Queries and other worlds keep their sum (C85_kept); otherwise the sum changes by the deltas of the output (C85_total_partial), which add up to the value sent: the caller is never debited (C85_value_refuted)."
  },
  {
   "property": "C86",
   "status": "proved",
   "theorems": [
    "C86_account",
    "C86_as_written",
    "C86_meaningless",
    "C86_negative_value",
    "C86_served"
   ],
   "note": "Negative amounts are numbers, too: a run may take money from the contract (C86_negative_value)."
  },
  {
   "property": "C87",
   "status": "partial",
   "theorems": [
    "C87_called_back_refuted",
    "C87_cold",
    "C87_distinct_partial",
    "C87_freed_refuted",
    "C87_left_refuted",
    "C87_second_refuted",
    "C87_uncached_partial"
   ],
   "note": "Proved for all histories if the option is off (C87_cold); with a warm instance if no address comes twice (C87_distinct_partial), and without compiled code nobody finds a freed instance (C87_uncached_partial). False otherwise: an upgrade runs the old code (C87_second_refuted), a call back resets the gas counter of its outer call (C87_called_back_refuted), with cached code an instance is freed while its owner is suspended (C87_freed_refuted), and instances that were warm are never freed (C87_left_refuted)."
  },
  {
   "property": "C88",
   "status": "partial",
   "theorems": [
    "C88_account",
    "C88_blocks",
    "C88_others",
    "C88_payable",
    "C88_tokens_partial",
    "C88_unknown",
    "C88_unknown_token_refuted"
   ],
   "note": "Tokens for accounts as in C75 (C88_tokens_partial). False for the tokens of an address without account, where the world panics (C88_unknown_token_refuted)."
  },
  {
   "property": "C89",
   "status": "partial",
   "theorems": [
    "C89_again_refuted",
    "C89_creators_refuted",
    "C89_declared",
    "C89_exact",
    "C89_generated",
    "C89_nonce_refuted",
    "C89_same_creator_partial",
    "C89_short_refuted"
   ],
   "note": "Declared addresses are used (C89_declared), others look right (C89_generated), and C89_exact says exactly when two are the same: not if nonces of one creator are less than 256 apart (C89_same_creator_partial). False otherwise: nonces 256 apart (C89_nonce_refuted), creators that agree in bytes 0 to 14 and 30 to 31 (C89_creators_refuted), a declaration in a later step is ignored (C89_again_refuted), and short creators make it panic (C89_short_refuted)."
  },
  {
   "property": "C90",
   "status": "partial",
   "theorems": [
    "C90_code",
    "C90_escape_refuted",
    "C90_faithful",
    "C90_read_partial",
    "C90_same",
    "C90_total"
   ],
   "note": "All but the last is proved for all files (C90_total, C90_faithful, C90_same, C90_code). K reads strings without quotes and backslashes (C90_read_partial); with these it does not, as they are not escaped (C90_escape_refuted)."
  },
  {
   "property": "C91",
   "status": "partial",
   "theorems": [
    "C91_call_partial",
    "C91_result",
    "C91_results_refuted",
    "C91_truncated_refuted",
    "C91_unsigned_refuted"
   ],
   "note": "Which calls are made is exact, and every number that fits arrives (C91_call_partial); results are exact (C91_result). Numbers that do not fit are cut off silently (C91_truncated_refuted), unsigned numbers of the same width are refused (C91_unsigned_refuted), further results are lost (C91_results_refuted)."
  },
  {
   "property": "C92",
   "status": "partial",
   "theorems": [
    "C92_accepted",
    "C92_count",
    "C92_names",
    "C92_registered",
    "C92_twice_refuted"
   ],
   "note": "All but the last proved in full. A second function of the same name silently takes the place of the first (C92_twice_refuted)."
  },
  {
   "property": "C93",
   "status": "partial",
   "theorems": [
    "C93_answered_partial",
    "C93_failed_refuted",
    "C93_gas_refuted",
    "C93_lost",
    "C93_nested_refuted",
    "C93_same_refuted",
    "C93_waits"
   ],
   "note": "Calls whose destination comes back are answered as claimed, and failing callbacks are reported (C93_answered_partial). A failing destination ends the transaction in a panic (C93_lost for every state, C93_failed_refuted for a transaction), and the destination gets all the gas left, not that of the call (C93_gas_refuted). While calls of the destination are pending nobody is called back (C93_waits); such calls to other shards take all the gas and the transaction runs out of it (C93_nested_refuted). Calls made by a contract that was called in the context of its caller are dropped (C93_same_refuted)."
  },
  {
   "property": "C94",
   "status": "partial",
   "theorems": [
    "C94_gas_refuted",
    "C94_silent_refuted",
    "C94_told_partial"
   ],
   "note": "When the upgrade is attempted, and with what, is exact (C94_told_partial). Without gas for the callback nothing is done, the contract gets the same 0 as otherwise and goes on (C94_silent_refuted); the gas given is compared with a minimum and not used (C94_gas_refuted)."
  },
  {
   "property": "C95",
   "status": "partial",
   "theorems": [
    "C95_charged_partial",
    "C95_earlier_refuted",
    "C95_free_refuted",
    "C95_full",
    "C95_returned_partial"
   ],
   "note": "Exact for executions with less than 2^63 gas (C95_charged_partial, C95_returned_partial). The counter stops at 2^63 - 1 while gas is a 64-bit number: beyond it nothing is charged (C95_full, C95_free_refuted), and a call that is given 2^63 - 1 gas makes all earlier work free (C95_earlier_refuted)."
  },
  {
   "property": "C96",
   "status": "partial",
   "theorems": [
    "C96_from_address",
    "C96_own_partial",
    "C96_stale_refuted",
    "C96_stored_refuted"
   ],
   "note": "True of reads with an address (C96_from_address) and of keys not yet in the output (C96_own_partial). A read without an address keeps the value in the storage updates: a second read after a built-in function has changed the value gives the old one (C96_stale_refuted), and the output tells the node to store the old value again (C96_stored_refuted)."
  },
  {
   "property": "C97",
   "status": "partial",
   "theorems": [
    "C97_paid_twice_refuted",
    "C97_sent_back_refuted",
    "C97_unpaid_partial"
   ],
   "note": "The answer to a call without value moves none (C97_unpaid_partial). The answer to a call from another shard returns the value of the call although it succeeded: the contract is not paid (C97_sent_back_refuted), and if it has passed the payment on, it has done so with its own money (C97_paid_twice_refuted)."
  },
  {
   "property": "C98",
   "status": "partial",
   "theorems": [
    "C98_called_partial",
    "C98_deployed_partial",
    "C98_same_refuted"
   ],
   "note": "The function called by a transaction and the init function have spent no more than they may when they succeed (C98_called_partial, C98_deployed_partial). A call in the same context whose last charge is beyond its gas succeeds, keeps its effects, and the transaction pays less than with enough gas (C98_same_refuted)."
  }
 ]
}