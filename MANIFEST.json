{
 "claims": [
  {
   "property": "C01",
   "status": "proved",
   "theorems": [
    "C01_u256_roundtrip",
    "C01_u256_canonical"
   ],
   "note": ""
  },
  {
   "property": "C02",
   "status": "partial",
   "theorems": [
    "C02_u256_size_partial",
    "C02_u256_size_refuted"
   ],
   "note": "Holds exactly for non-zero numbers; for zero the predicted size is 2 and the written size 1 (refuted)."
  },
  {
   "property": "C03",
   "status": "partial",
   "theorems": [
    "C03_load_u256_partial",
    "C03_load_u256_panics",
    "C03_load_u256_refuted"
   ],
   "note": "Exact behaviour for every input. The property as stated is refuted: empty input and input missing its last byte panic."
  },
  {
   "property": "C04",
   "status": "proved",
   "theorems": [
    "C04_biguint_roundtrip",
    "C04_load_biguint_cases"
   ],
   "note": ""
  },
  {
   "property": "C05",
   "status": "proved",
   "theorems": [
    "C05_u256_as_biguint"
   ],
   "note": ""
  },
  {
   "property": "C06",
   "status": "proved",
   "theorems": [
    "C06_basic_info_roundtrip"
   ],
   "note": ""
  },
  {
   "property": "C07",
   "status": "partial",
   "theorems": [
    "C07_basic_info_size_partial",
    "C07_basic_info_size_refuted",
    "C07_block_size"
   ],
   "note": "Exact for all values: off by one exactly at height 0 (and fee 0 for whole blocks), refuted there."
  },
  {
   "property": "C08",
   "status": "partial",
   "theorems": [
    "C08_basic_info_parse_partial",
    "C08_deserialize_partial",
    "C08_parse_refuted"
   ],
   "note": "Exact set of panicking inputs for every byte string, never UB; the property as stated (never panics) is refuted."
  },
  {
   "property": "C09",
   "status": "partial",
   "theorems": [
    "C09_transaction_block_partial",
    "C09_transaction_block_refuted"
   ],
   "note": "Proved for every height but 0; refuted at height 0, where the fee is read one byte too far."
  },
  {
   "property": "C10",
   "status": "proved",
   "theorems": [
    "C10_summarize_derivative_roundtrip"
   ],
   "note": ""
  },
  {
   "property": "C11",
   "status": "proved",
   "theorems": [
    "C11_dump_determines_block"
   ],
   "note": ""
  },
  {
   "property": "C12",
   "status": "partial",
   "theorems": [
    "C12_transaction_roundtrip_partial",
    "C12_transaction_roundtrip_empty",
    "C12_transaction_roundtrip_refuted"
   ],
   "note": "Proved unless data is the empty vector, which comes back as None (refuted, exact result given)."
  },
  {
   "property": "C13",
   "status": "partial",
   "theorems": [
    "C13_transaction_size_partial",
    "C13_transaction_size_refuted"
   ],
   "note": "Exact: predicted size is right iff the amount is not 0."
  },
  {
   "property": "C14",
   "status": "partial",
   "theorems": [
    "C14_transaction_parse_partial",
    "C14_transaction_parse_refuted"
   ],
   "note": "Exact set of panicking inputs, results well formed and re-parse to themselves; 'never panics' is refuted."
  },
  {
   "property": "C15",
   "status": "proved",
   "theorems": [
    "C15_hash_is_sha256_of_dump",
    "C15_hash_determines_transaction"
   ],
   "note": ""
  },
  {
   "property": "C16",
   "status": "proved",
   "theorems": [
    "C16_signature_covers_fields",
    "C16_same_digest"
   ],
   "note": ""
  },
  {
   "property": "C17",
   "status": "proved",
   "theorems": [
    "C17_new_transaction_verifies",
    "C17_bad_key"
   ],
   "note": ""
  },
  {
   "property": "C18",
   "status": "proved",
   "theorems": [
    "C18_build_tree"
   ],
   "note": ""
  },
  {
   "property": "C19",
   "status": "proved",
   "theorems": [
    "C19_proof_complete",
    "C19_proof_safe"
   ],
   "note": ""
  },
  {
   "property": "C20",
   "status": "partial",
   "theorems": [
    "C20_proof_sound_partial",
    "C20_proof_sound_refuted"
   ],
   "note": "Refuted with a two-item tree; what remains true is proved: a false acceptance needs an AND coincidence or a SHA-256 collision."
  },
  {
   "property": "C21",
   "status": "partial",
   "theorems": [
    "C21_root_binding_partial",
    "C21_root_binding_refuted"
   ],
   "note": "Refuted (swapping siblings, appending 0xFF items). Proved for all pairs of lists, of any lengths: equal roots mean equal lists up to trailing 0xFF items, or equal ANDs of different children, a SHA-256 collision, or a SHA-256 preimage of all ones."
  },
  {
   "property": "C22",
   "status": "proved",
   "theorems": [
    "C22_count_leading_zeros"
   ],
   "note": ""
  },
  {
   "property": "C23",
   "status": "proved",
   "theorems": [
    "C23_check_pow",
    "C23_check_pow_monotone"
   ],
   "note": ""
  },
  {
   "property": "C24",
   "status": "partial",
   "theorems": [
    "C24_retarget_partial",
    "C24_retarget_refuted"
   ],
   "note": "Proved for every 2^m-1 with m>=1; refuted at m=0."
  },
  {
   "property": "C25",
   "status": "proved",
   "theorems": [
    "C25_difficulty_domain",
    "C25_domain_needed"
   ],
   "note": ""
  },
  {
   "property": "C26",
   "status": "proved",
   "theorems": [
    "C26_fee"
   ],
   "note": ""
  },
  {
   "property": "C27",
   "status": "proved",
   "theorems": [
    "C27_validate_none",
    "C27_verify_block",
    "C27_validate_transaction_block",
    "C27_validate_summarize_block",
    "C27_validate_safe"
   ],
   "note": ""
  },
  {
   "property": "C28",
   "status": "partial",
   "theorems": [
    "C28_emitted_validates_partial",
    "C28_emitted_validates_refuted"
   ],
   "note": "Refuted: emission hashes the previous hash into the work, validation the merkle root. Proved instead: an emitted block's verdict is exactly that one test."
  },
  {
   "property": "C29",
   "status": "partial",
   "theorems": [
    "C29_emitted_derivative_never_validates_refuted",
    "C29_derivative_validate"
   ],
   "note": "Refuted: no emitted derivative block ever validates; against its derivative predecessor validation always panics. Validation of derivative blocks is characterised exactly."
  },
  {
   "property": "C30",
   "status": "partial",
   "theorems": [
    "C30_height_fee_refuted",
    "C30_validate_ignores_height_and_fee",
    "C30_reported"
   ],
   "note": "Refuted: the verdict never depends on height or fee; every height and fee is accepted."
  },
  {
   "property": "C31",
   "status": "proved",
   "theorems": [
    "C31_append_only",
    "C31_history_keeps_blocks"
   ],
   "note": ""
  },
  {
   "property": "C32",
   "status": "proved",
   "theorems": [
    "C32_find_by_hash"
   ],
   "note": ""
  },
  {
   "property": "C33",
   "status": "partial",
   "theorems": [
    "C33_add_block_partial",
    "C33_add_block_refuted"
   ],
   "note": "Refuted: acceptance depends on the height alone (exact condition proved); an invalid block is accepted."
  },
  {
   "property": "C34",
   "status": "partial",
   "theorems": [
    "C34_last_block_partial",
    "C34_last_block_refuted"
   ],
   "note": "Proved for histories without derivative blocks added to the main chain by hand; refuted otherwise."
  },
  {
   "property": "C35",
   "status": "proved",
   "theorems": [
    "C35_genesis_text",
    "C35_decimal",
    "C35_emitted_chain_linked",
    "C35_genesis"
   ],
   "note": ""
  },
  {
   "property": "C36",
   "status": "proved",
   "theorems": [
    "C36_epoch_reached",
    "C36_block_kinds"
   ],
   "note": ""
  },
  {
   "property": "C37",
   "status": "partial",
   "theorems": [
    "C37_refused_derivative_emission",
    "C37_refused_emission_pins_genesis_refuted",
    "C37_refused_main_emission"
   ],
   "note": "Main chain: nothing changes at all. Derivative chains: no block, balance or other chain changes. Refuted part: a refused first emission creates the chain and fixes its genesis hash."
  },
  {
   "property": "C38",
   "status": "partial",
   "theorems": [
    "C38_timestamps_partial",
    "C38_timestamps_refuted"
   ],
   "note": "Proved for debug builds; refuted for release builds, where the time difference wraps."
  },
  {
   "property": "C39",
   "status": "proved",
   "theorems": [
    "C39_chain_linked",
    "C39_chain_created",
    "C39_isolation",
    "C39_nothing_above",
    "C39_emission_appends"
   ],
   "note": ""
  },
  {
   "property": "C40",
   "status": "proved",
   "theorems": [
    "C40_directory_names",
    "C40_directory_characters"
   ],
   "note": ""
  },
  {
   "property": "C41",
   "status": "proved",
   "theorems": [
    "C41_balances_readable",
    "C41_add_amount",
    "C41_set_amount",
    "C41_sub_amount",
    "C41_send_amount",
    "C41_amount_history",
    "C41_gas_history"
   ],
   "note": ""
  },
  {
   "property": "C42",
   "status": "proved",
   "theorems": [
    "C42_send_amount_conserves",
    "C42_overdraft_no_effect",
    "C42_transfers_conserve"
   ],
   "note": ""
  },
  {
   "property": "C43",
   "status": "partial",
   "theorems": [
    "C43_overdraft_partial",
    "C43_overdraft_refuted",
    "C43_self_transfer_unchecked"
   ],
   "note": "Refuted: every overdraft panics; proved that it never has an effect."
  },
  {
   "property": "C44",
   "status": "partial",
   "theorems": [
    "C44_send_gas_conserves_partial",
    "C44_send_gas_refuted"
   ],
   "note": "Proved between different accounts; refuted for a transfer to oneself, which creates gas."
  },
  {
   "property": "C45",
   "status": "partial",
   "theorems": [
    "C45_send_transaction_ok_partial",
    "C45_send_transaction_err",
    "C45_send_transaction_panics",
    "C45_gas_refuted",
    "C45_atomic_refuted"
   ],
   "note": "Exact success condition and effects proved, errors have no effect. Refuted parts: a zero amount pays for one byte too many; a panic on receiver overflow leaves the transaction stored. Transactions below 2^63 bytes."
  },
  {
   "property": "C46",
   "status": "partial",
   "theorems": [
    "C46_signature_ignored",
    "C46_authorised_refuted"
   ],
   "note": "Refuted for every signature scheme; proved that the signature is ignored altogether."
  },
  {
   "property": "C47",
   "status": "partial",
   "theorems": [
    "C47_replay_store_partial",
    "C47_replay_refuted"
   ],
   "note": "Refuted for every transaction whose funds last; proved that replaying stores nothing new."
  },
  {
   "property": "C48",
   "status": "partial",
   "theorems": [
    "C48_fee_covered_partial",
    "C48_fee_refuted"
   ],
   "note": "Refuted for every accepted transaction; proved that amount plus fee must be covered."
  },
  {
   "property": "C49",
   "status": "partial",
   "theorems": [
    "C49_store_sound",
    "C49_stays_stored",
    "C49_added",
    "C49_absent",
    "C49_get_transaction_partial",
    "C49_empty_data_refuted"
   ],
   "note": "Proved for transactions with non-empty data; refuted for empty data, which comes back as absent data."
  },
  {
   "property": "C50",
   "status": "partial",
   "theorems": [
    "C50_summary_root_partial",
    "C50_leaf_binding",
    "C50_same_balances_refuted",
    "C50_gas_uncommitted_refuted"
   ],
   "note": "Proved what the root commits to (accounts that have an entry, in address order, amount and gas) and that leaves bind account, amount and gas. Refuted as stated: balances do not determine the root, and gas of accounts without an amount entry is not covered."
  },
  {
   "property": "C51",
   "status": "proved",
   "theorems": [
    "C51_epoch_rotation",
    "C51_no_rotation"
   ],
   "note": ""
  },
  {
   "property": "C52",
   "status": "proved",
   "theorems": [
    "C52_copy_overlays",
    "C52_copy_to_empty"
   ],
   "note": ""
  },
  {
   "property": "C53",
   "status": "proved",
   "theorems": [
    "C53_pool_contents",
    "C53_push"
   ],
   "note": ""
  },
  {
   "property": "C54",
   "status": "proved",
   "theorems": [
    "C54_pop",
    "C54_drain"
   ],
   "note": ""
  },
  {
   "property": "C55",
   "status": "partial",
   "theorems": [
    "C55_order_laws_partial",
    "C55_equality_disagrees_refuted"
   ],
   "note": "Refuted: == compares timestamps only. Order laws proved; cmp Equal implies ==."
  },
  {
   "property": "C56",
   "status": "proved",
   "theorems": [
    "C56_reopen_main_chain"
   ],
   "note": ""
  },
  {
   "property": "C57",
   "status": "partial",
   "theorems": [
    "C57_reopen_balances_partial",
    "C57_reopen_root_refuted"
   ],
   "note": "Gas and all accounts but the root one proved; refuted for the root account, which is reset to the cycle amount when only genesis is stored."
  },
  {
   "property": "C58",
   "status": "partial",
   "theorems": [
    "C58_flush_forgets_derivatives_refuted",
    "C58_flushed_derivative_survives_partial"
   ],
   "note": "Refuted: BlockChainTree::flush neither flushes derivative chains nor writes their config. Proved for chains flushed through their own handle."
  },
  {
   "property": "C59",
   "status": "proved",
   "theorems": [
    "C59_flushed_blocks_survive_crash"
   ],
   "note": ""
  },
  {
   "property": "C60",
   "status": "partial",
   "theorems": [
    "C60_truncated_config_refuted",
    "C60_height_ahead_of_blocks_refuted",
    "C60_late_flush_crash_partial"
   ],
   "note": "Refuted twice: truncated config cannot be opened; config written before the blocks leaves a missing last block. Proved for all points after the blocks are flushed, with the config write on disk."
  },
  {
   "property": "C61",
   "status": "partial",
   "theorems": [
    "C61_lookups_after_crash_partial",
    "C61_stale_reference_after_crash_refuted"
   ],
   "note": "Proved right after crash and reopen; refuted after further blocks are added (stale references)."
  },
  {
   "property": "C62",
   "status": "proved",
   "theorems": [
    "C62_alone_is_sequential",
    "C62_linearizable",
    "C62_balances_and_results"
   ],
   "note": ""
  },
  {
   "property": "C63",
   "status": "partial",
   "theorems": [
    "C63_distinct_addresses_partial",
    "C63_lost_updates_refuted"
   ],
   "note": "Refuted for every text address: read-compute-write without a lock. Proved when concurrent calls concern different addresses."
  },
  {
   "property": "C64",
   "status": "partial",
   "theorems": [
    "C64_conserved_partial",
    "C64_unpaid_transfer_refuted"
   ],
   "note": "Refuted for the gas: checked first, charged last, so a second concurrent transfer can happen without its charge. Proved: funds conserved, gas charged exactly for the transactions that returned success."
  },
  {
   "property": "C65",
   "status": "proved",
   "theorems": [
    "C65_contiguous",
    "C65_last_block_of_some_moment"
   ],
   "note": ""
  },
  {
   "property": "C66",
   "status": "partial",
   "theorems": [
    "C66_text_is_utf8",
    "C66_text_addresses_partial",
    "C66_binary_addresses_panic_refuted"
   ],
   "note": "Refuted for addresses that are not UTF-8: add_funds stores and then panics. Proved for UTF-8 addresses."
  },
  {
   "property": "C67",
   "status": "partial",
   "theorems": [
    "C67_headers_partial",
    "C67_headers_refuted"
   ],
   "note": "Code 5 (GenesisBlock) is refused by from_u8; all other headers round-trip, all other codes are refused."
  },
  {
   "property": "C68",
   "status": "proved",
   "theorems": [
    "C68_balances_after_crash"
   ],
   "note": ""
  },
  {
   "property": "C69",
   "status": "partial",
   "theorems": [
    "C69_crash_splits_transfer_and_gas_refuted"
   ],
   "note": "Refuted: the two databases lose writes independently."
  },
  {
   "property": "C70",
   "status": "proved",
   "theorems": [
    "C70_release_order_is_history_independent"
   ],
   "note": ""
  },
  {
   "property": "C71",
   "status": "partial",
   "theorems": [
    "C71_order_depends_on_machine_refuted",
    "C71_timestamps_order_on_every_machine_partial"
   ],
   "note": "Refuted: ties are broken by the hash read in native byte order. Proved for different timestamps."
  },
  {
   "property": "C72",
   "status": "proved",
   "theorems": [
    "C72_rotation_copies",
    "C72_rotation_needs"
   ],
   "note": ""
  },
  {
   "property": "C73",
   "status": "partial",
   "theorems": [
    "C73_rotation_is_not_atomic_refuted",
    "C73_rotation_can_be_repeated_partial"
   ],
   "note": "Refuted: old directories are removed before the copy. Proved at every moment, also inside a removal or copy: current directories are untouched, the old ones hold only parts of the previous or the current content, and the rotation can be repeated."
  },
  {
   "property": "C74",
   "status": "proved",
   "theorems": [
    "C74_completed_update_is_durable"
   ],
   "note": ""
  },
  {
   "property": "C75",
   "status": "partial",
   "theorems": [
    "C75_settled_heights_partial",
    "C75_block_seen_before_its_hash_refuted"
   ],
   "note": "Refuted: a block can be found by height while it is being added and then not by its hash. Proved for heights below the chain height and (C65) for get_last_raw_block."
  },
  {
   "property": "C76",
   "status": "proved",
   "theorems": [
    "C76_no_deadlock"
   ],
   "note": ""
  },
  {
   "property": "C77",
   "status": "partial",
   "theorems": [
    "C77_flush_alone",
    "C77_flush_saves_partial",
    "C77_flushes_reopen_partial",
    "C77_flush_saves_refuted"
   ],
   "note": "Refuted for two flushes at once: the one that read the height earlier may write it later. Proved for one flush among any other calls, and, for any number of flushes, that the directory opens again at a height of some moment."
  },
  {
   "property": "C78",
   "status": "proved",
   "theorems": [
    "C78_emission_decision"
   ],
   "note": ""
  },
  {
   "property": "C79",
   "status": "proved",
   "theorems": [
    "C79_derivative_emission_decision"
   ],
   "note": ""
  },
  {
   "property": "C80",
   "status": "partial",
   "theorems": [
    "C80_no_undefined_behaviour_partial",
    "C80_checked_builds",
    "C80_release_refuted",
    "C80_unchecked"
   ],
   "note": "Refuted for release builds after add_new_block with a difficulty whose top bit is set. Proved for every history in debug builds, and for every history with emitted blocks only in both profiles. C80_unchecked shows that the accesses of the Merkle module are modelled as unchecked."
  },
  {
   "property": "C81",
   "status": "proved",
   "theorems": [
    "C81_panics"
   ],
   "note": "Transactions below 2^63 bytes."
  },
  {
   "property": "C82",
   "status": "partial",
   "theorems": [
    "C82_supply_unique",
    "C82_supply_step",
    "C82_supply_partial",
    "C82_restart_mints_refuted"
   ],
   "note": "Refuted: a restart while the chain consists of the first block only gives the root account its initial amount again, so k such restarts multiply the supply by k+1. Proved for every history whose restarts happen at greater heights."
  },
  {
   "property": "C83",
   "status": "proved",
   "theorems": [
    "C83_flush_invisible"
   ],
   "note": ""
  },
  {
   "property": "C84",
   "status": "partial",
   "theorems": [
    "C84_restart_invisible_partial",
    "C84_early_restart_refuted",
    "C84_derivative_restart_refuted"
   ],
   "note": "Refuted twice: a restart while the chain consists of the first block only resets the root account, and a restart forgets derivative blocks that were not flushed through the chain's own handle. Proved for the main calls and all answers about main chain and balances, with restarts at heights above 1."
  },
  {
   "property": "C85",
   "status": "proved",
   "theorems": [
    "C85_transactions_after_crash",
    "C85_flushed_lookups_survive"
   ],
   "note": ""
  },
  {
   "property": "C86",
   "status": "proved",
   "theorems": [
    "C86_flushed_derivative_survives_crash"
   ],
   "note": ""
  },
  {
   "property": "C87",
   "status": "partial",
   "theorems": [
    "C87_attached_after_crash_partial",
    "C87_detached_refuted"
   ],
   "note": "Refuted: a derivative chain flushed through its handle while the main block it starts from is not flushed can survive a crash that loses that block; every first emission on it is then refused. Proved when the main chain is flushed after the chain was opened and before the chain is flushed."
  },
  {
   "property": "C88",
   "status": "proved",
   "theorems": [
    "C88_flushed_blocks_are_never_lost"
   ],
   "note": ""
  },
  {
   "property": "C89",
   "status": "partial",
   "theorems": [
    "C89_crash_truncates",
    "C89_linked_after_crashes_partial",
    "C89_window_refuted",
    "C89_ghost_block_refuted"
   ],
   "note": "Refuted inside a flush between the config write and the block flush (height without a last block, every emission panics), and above the end of the chain (a block cut off by a crash is still found at the index equal to the height). Proved for every other crash point and every index below the height."
  },
  {
   "property": "C90",
   "status": "partial",
   "theorems": [
    "C90_derivative_linked_after_crashes_partial",
    "C90_flushed_derivative_blocks_are_never_lost",
    "C90_window_refuted"
   ],
   "note": "Refuted inside a flush of the chain between its config write and its block flush: a height without a last block, every later emission refused. Proved for every other crash point."
  },
  {
   "property": "C91",
   "status": "partial",
   "theorems": [
    "C91_miner_never_panics",
    "C91_miner_accounts",
    "C91_clock_refuted",
    "C91_first_nonce",
    "C91_fee_refuted"
   ],
   "note": "Runs of examples/mine.rs (as the code would be with the transactions passed to check_pow; the example as written does not compile against this version). Refuted when the clock goes back, and for the fee: the miner is credited the fee of the previous difficulty, the block carries the fee of the new one. Restarts before the first block are not covered."
  },
  {
   "property": "C92",
   "status": "proved",
   "theorems": [
    "C92_deriv_miner_never_panics",
    "C92_deriv_miner_accounts",
    "C92_first_nonce"
   ],
   "note": "Runs of examples/mine_derivative.rs from an empty directory; restarts after the first block."
  },
  {
   "property": "C93",
   "status": "partial",
   "theorems": [
    "C93_alone",
    "C93_success",
    "C93_refused_partial",
    "C93_chain",
    "C93_lost_epoch",
    "C93_refused_refuted"
   ],
   "note": "A refused emission can have rotated the balances: refuted at every epoch boundary (C93_lost_epoch, C93_refused_refuted). The tree is borrowed by one emission at a time; the handles of the main chain are free. The steps on the balance databases inside rotate_dbs, invisible to handles, are one step."
  },
  {
   "property": "C94",
   "status": "partial",
   "theorems": [
    "C94_invisible",
    "C94_retry",
    "C94_repaired",
    "C94_unopenable_refuted",
    "C94_late_refuted",
    "C94_closed_partial",
    "C94_derivative_refuted",
    "C94_dropped_is_failed"
   ],
   "note": "Invisibility, retrying and repair by a completed flush hold for every history; closing without one is refuted for the main chain (C94_unopenable_refuted) and for derivative chains (C94_derivative_refuted), and the repair is refuted when tokio carries out the operation in flight late (C94_late_refuted). The struct SummaryDB, whose async calls await after writing, is not part of these histories: see C118."
  },
  {
   "property": "C95",
   "status": "partial",
   "theorems": [
    "C95_linearizable",
    "C95_contiguous",
    "C95_alone",
    "C95_no_deadlock",
    "C95_flushes_reopen",
    "C95_flush_height_refuted",
    "C95_reachable"
   ],
   "note": "Linearizability, consecutive heights, no deadlock and reopening after overlapping flushes are proved for all schedules. That a flush which has returned keeps the height it was called at is refuted: an overlapping flush may write the older height it read (C95_flush_height_refuted)."
  },
  {
   "property": "C96",
   "status": "partial",
   "theorems": [
    "C96_tx_accepted",
    "C96_tx_shortest",
    "C96_tx_encodings",
    "C96_tx_canonical_refuted",
    "C96_deriv_accepted",
    "C96_main_accepted",
    "C96_main_minimal",
    "C96_main_layout_refuted",
    "C96_main_shortest"
   ],
   "note": "Acceptance is characterised exactly for transactions, derivative blocks and main-chain blocks. Canonicity of transaction encodings and reading a transaction block as laid out when its height is zero-padded are refuted with witnesses."
  },
  {
   "property": "C97",
   "status": "partial",
   "theorems": [
    "C97_no_faults",
    "C97_success",
    "C97_opening",
    "C97_config_refuted",
    "C97_deriv_config_refuted"
   ],
   "note": "Proved for every call and for opening, except that a config file which exists but cannot be opened is taken for a missing one (chain.rs:90-92, :478-480): refuted for the main chain (C97_config_refuted: the chain starts again from the first block and the root account is refilled) and for derivative chains (C97_deriv_config_refuted)."
  },
  {
   "property": "C98",
   "status": "partial",
   "theorems": [
    "C98_chain_kept",
    "C98_unique",
    "C98_reopened",
    "C98_ghosts_refuted"
   ],
   "note": "The chain, its links and its initial parts after reopening are proved for all histories. That nothing else is found is refuted: a block whose addition failed half-way is found by its height above the end and by its hash (C98_ghosts_refuted). Opening with the config file failing to open is excluded here, see C97."
  },
  {
   "property": "C99",
   "status": "partial",
   "theorems": [
    "C99_repeat",
    "C99_until_success",
    "C99_amount_refuted",
    "C99_transaction_refuted",
    "C99_block_refuted"
   ],
   "note": "Proved for emission of transaction blocks, additions of blocks and transactions, derivative calls, set_amount and flushes. Refuted for add_amount (C99_amount_refuted), send_transaction (C99_transaction_refuted) and add_new_block once the block was added (C99_block_refuted); closing an epoch is C102."
  },
  {
   "property": "C100",
   "status": "partial",
   "theorems": [
    "C100_balances",
    "C100_unique",
    "C100_supply",
    "C100_whole_refuted"
   ],
   "note": "Balances, atomicity of each single change and the supply are proved for all histories. That a failed call makes all its changes or none is refuted for send_transaction (C100_whole_refuted)."
  },
  {
   "property": "C101",
   "status": "partial",
   "theorems": [
    "C101_invisible",
    "C101_success",
    "C101_kept",
    "C101_unreported_refuted"
   ],
   "note": "Invisibility and repair are proved; a successful flush has done everything or left a config file that can never be read, and the latter is refuted as impossible by C101_unreported_refuted: the error of the last config write is dropped."
  },
  {
   "property": "C102",
   "status": "partial",
   "theorems": [
    "C102_directories",
    "C102_no_epoch",
    "C102_stuck",
    "C102_restart",
    "C102_again_refuted",
    "C102_closing_refuted"
   ],
   "note": "Proved: while a directory of the old databases is missing no call closes an epoch, at the end of an epoch every emission fails, and flushing, closing and opening repairs it unless the root account was already reset. Refuted: repeating the call without a restart (C102_again_refuted), and the closing balances once the root account was reset before the block was added (C102_closing_refuted)."
  },
  {
   "property": "C103",
   "status": "partial",
   "theorems": [
    "C103_open_again",
    "C103_config_refuted"
   ],
   "note": "Proved when the config file, if it exists, can be opened. Refuted otherwise (C103_config_refuted): an opening that takes the config file for missing and fails later has already reset the root account."
  },
  {
   "property": "C104",
   "status": "partial",
   "theorems": [
    "C104_laws_partial",
    "C104_height_order_partial",
    "C104_same_refuted",
    "C104_order_refuted"
   ],
   "note": "The order laws and the sortedness of Debug chains made by emissions are proved (_partial: timestamps only, and not for blocks added raw). That == blocks are the same block, and that order is height order in every build, are refuted with witnesses."
  },
  {
   "property": "C105",
   "status": "partial",
   "theorems": [
    "C105_any_order_partial",
    "C105_one_partial",
    "C105_all_received_partial",
    "C105_answers_partial",
    "C105_emission_partial",
    "C105_root_refuted",
    "C105_reset_refuted"
   ],
   "note": "The receiving program (FollowSpec.receive) is a client, not code of the repository. Proved: deliveries in any order keep the receiver's chain a beginning of the sender's, complete deliveries make the chains equal, equal chains answer and emit alike outside epoch boundaries (or with equal summaries). Refuted with witnesses at the millionth block: equal balances do not give equal summarize blocks; a received summarize block does not reset the root account. The sender's chain holds no derivative blocks added by hand where stated (main_kinds)."
  },
  {
   "property": "C106",
   "status": "proved",
   "theorems": [
    "C106_programs_accounts",
    "C106_miners_never_panic",
    "C106_sender"
   ],
   "note": ""
  },
  {
   "property": "C107",
   "status": "partial",
   "theorems": [
    "C107_nothing_else_is_found",
    "C107_flushed_is_never_lost",
    "C107_only_shortened_partial",
    "C107_linked_partial",
    "C107_broken_link_refuted"
   ],
   "note": "Finding only what was given and never losing what was flushed are proved for all faults, crashes and openings. That a crash only shortens the chain and that the chain stays linked are proved except for calls in which the flush of the blocks fails without effect, or is killed before it, after the config was written; there they are refuted (C107_broken_link_refuted: two crashes and such a flush bring a block of an abandoned branch back into the chain, on a block it does not refer to, and emission continues on it)."
  },
  {
   "property": "C108",
   "status": "partial",
   "theorems": [
    "C108_roundtrip",
    "C108_success",
    "C108_decompress",
    "C108_never_wrong",
    "C108_earlier_lost_refuted",
    "C108_cut_refuted"
   ],
   "note": "The codec of crate zstd is external and arbitrary; what is asked of it is a premise of each theorem and met by an example codec. Reading back, faithful success reports and never reading anything wrong are proved for every data, every split into writes, every failing operation and every crash; that a failed compression keeps the earlier file readable is refuted (the file is emptied first), and so is the freedom from wrong data without the premise that cut encodings are refused."
  },
  {
   "property": "C109",
   "status": "partial",
   "theorems": [
    "C109_nothing_else_is_found",
    "C109_founder",
    "C109_flushed_is_never_lost",
    "C109_linked_partial",
    "C109_config_refuted",
    "C109_window_refuted"
   ],
   "note": "Finding only what was given or made, founders, and never losing what was flushed are proved for all faults, crashes and openings (the last one given that the config file of the chain, once it exists, can be opened). That the chain is a linked row is proved except for calls that cannot open an existing config file (refuted: the chain counts as empty, its first block is replaced, the chain is broken after the next restart) and flushes in which the flush of the blocks fails without effect or that are killed before it (refuted: height 1 without a block)."
  },
  {
   "property": "C110",
   "status": "partial",
   "theorems": [
    "C110_balances",
    "C110_balances_of_one_moment",
    "C110_supply_partial",
    "C110_supply_refuted"
   ],
   "note": "C110_balances and C110_balances_of_one_moment cover every history (the one exception, the root account while the chain is one block long, is the reset at blockchaintree.rs:45-83 and part of the statement). C110_supply_partial: missing is the time before the first flush of a second block (refuted by C110_supply_refuted: an unflushed config file makes an opening mint) and calls that close an epoch (they set the root account by design, C82)."
  },
  {
   "property": "C111",
   "status": "proved",
   "theorems": [
    "C111_refinement"
   ],
   "note": ""
  },
  {
   "property": "C112",
   "status": "partial",
   "theorems": [
    "C112_call_partial",
    "C112_history_partial",
    "C112_validate_partial",
    "C112_refuted",
    "C112_validate_refuted"
   ],
   "note": "The theorems cover every tree, call, history and block; missing from full agreement are exactly the emissions and validations that panic in the checked build, and there the builds do differ (C112_refuted, C112_validate_refuted)."
  },
  {
   "property": "C113",
   "status": "partial",
   "theorems": [
    "C113_no_trace_partial",
    "C113_transaction_refuted",
    "C113_derivative_refuted"
   ],
   "note": "Proved for every history and every failing call, flush or repeated request, except the two kinds of calls the statement names, for which the property is false (C113_transaction_refuted, C113_derivative_refuted)."
  },
  {
   "property": "C114",
   "status": "proved",
   "theorems": [
    "C114_swap"
   ],
   "note": ""
  },
  {
   "property": "C115",
   "status": "proved",
   "theorems": [
    "C115_balances_of_one_moment",
    "C115_conserved",
    "C115_flushed_survive"
   ],
   "note": ""
  },
  {
   "property": "C116",
   "status": "proved",
   "theorems": [
    "C116_independent"
   ],
   "note": ""
  },
  {
   "property": "C117",
   "status": "proved",
   "theorems": [
    "C117_clock",
    "C117_same_clock",
    "C117_bits",
    "C117_slow",
    "C117_deriv"
   ],
   "note": ""
  },
  {
   "property": "C118",
   "status": "partial",
   "theorems": [
    "C118_accounts",
    "C118_nothing_fails",
    "C118_answers",
    "C118_errors",
    "C118_repeated_refuted"
   ],
   "note": "Whole-or-nothing accounting holds for every history. Refuted: repeating an update that was dropped, or answered with an error because its flush failed, counts it twice (C118_repeated_refuted)."
  },
  {
   "property": "C119",
   "status": "partial",
   "theorems": [
    "C119_gas",
    "C119_coins",
    "C119_all_gas",
    "C119_forged_refuted"
   ],
   "note": "The books of every account balance for every history. Refuted as conservation: an account that sends gas to itself gains it, so gas is made from nothing (C119_forged_refuted); C119_all_gas counts these transfers as additions."
  },
  {
   "property": "C120",
   "status": "partial",
   "theorems": [
    "C120_epoch",
    "C120_accounts",
    "C120_first_epoch",
    "C120_transactions",
    "C120_reached",
    "C120_raw_refuted"
   ],
   "note": "Proved for every history in which blocks added by hand stay inside epochs and carry the right root. Without the second condition it is refuted: add_new_block accepts a block with any root (C120_raw_refuted)."
  },
  {
   "property": "C121",
   "status": "proved",
   "theorems": [
    "C121_prime",
    "C121_arithmetic",
    "C121_addition",
    "C121_curve",
    "C121_keys",
    "C121_public",
    "C121_verified",
    "C121_order",
    "C121_equation",
    "C121_accepted",
    "C121_other_signature",
    "C121_secret_keys",
    "C121_refused",
    "C121_signing",
    "C121_nonce",
    "C121_root_key"
   ],
   "note": "Proved for the model of the crate in Secp.v, which repeats its documentation (SEC 1, SEC 2, RFC 6979) and agrees with published values when SecpTests.v is compiled. Not proved: that adding points is associative, hence that every own signature is accepted; where theorems need that they take it as a premise (key_pair)."
  },
  {
   "property": "C122",
   "status": "partial",
   "theorems": [
    "C122_history_partial",
    "C122_last_block_partial",
    "C122_fork_partial",
    "C122_transactions",
    "C122_derivative_partial",
    "C122_anchor_partial",
    "C122_raw_refuted"
   ],
   "note": "Proved for nodes whose blocks come from emission, under all failing operations, kills and openings except those for which the chain itself is not a linked row (C107, C109: a flush whose flush of the blocks fails without effect; calls that cannot open an existing config file). The part about the main chain below a derivative chain is proved without failures only, since a crash can remove the block a derivative chain is attached to (C87). Blocks added with add_new_block commit to nothing (refuted: the previous hash is not compared). The statement about transactions holds for all histories."
  },
  {
   "property": "C123",
   "status": "proved",
   "theorems": [
    "C123_standard",
    "C123_primes",
    "C123_collision"
   ],
   "note": ""
  },
  {
   "property": "C124",
   "status": "proved",
   "theorems": [
    "C124_exactly",
    "C124_hashes_differ",
    "C124_signed",
    "C124_transaction_or_block"
   ],
   "note": ""
  },
  {
   "property": "C125",
   "status": "partial",
   "theorems": [
    "C125_reading",
    "C125_damaged_calls",
    "C125_damage_stays",
    "C125_mended",
    "C125_damaged_receiver",
    "C125_stored_refuted"
   ],
   "note": "Proved for all database contents: readings, calls that read a damaged entry, what mends it. Refuted for the receiver of a transaction: send_transaction reads the receiver only after it has stored the transaction, so that a panic on a damaged receiver leaves the transaction stored without transfer or gas charge (C125_damaged_receiver, C125_stored_refuted)."
  },
  {
   "property": "C126",
   "status": "proved",
   "theorems": [
    "C126_opening",
    "C126_side_opening",
    "C126_lookups",
    "C126_undefined_exactly",
    "C126_histories"
   ],
   "note": ""
  },
  {
   "property": "C127",
   "status": "partial",
   "theorems": [
    "C127_listed_partial",
    "C127_flushed_partial",
    "C127_unknown_refuted",
    "C127_twice_refuted",
    "C127_crash_refuted"
   ],
   "note": "Proved: if callers list only transactions that are stored (or handed over with the block), every listed transaction can be retrieved, through clean restarts (C127_listed_partial), and after a crash for the blocks of the last complete flush (C127_flushed_partial, up to a named SHA-256 collision). Refuted: emission checks nothing about the hashes it lists (C127_unknown_refuted), the same transaction can be listed twice in one block and again in the next (C127_twice_refuted), and a crash between the flush of the blocks and the flush of the transactions leaves a block whose transaction is gone (C127_crash_refuted)."
  },
  {
   "property": "C128",
   "status": "proved",
   "theorems": [
    "C128_calls",
    "C128_opening",
    "C128_histories"
   ],
   "note": ""
  },
  {
   "property": "C129",
   "status": "proved",
   "theorems": [
    "C129_lookups",
    "C129_calls",
    "C129_histories"
   ],
   "note": ""
  },
  {
   "property": "C130",
   "status": "partial",
   "theorems": [
    "C130_lookups",
    "C130_errors",
    "C130_histories",
    "C130_unchanged_partial",
    "C130_epoch_closed",
    "C130_epoch_refuted"
   ],
   "note": "Proved for all contents: results of lookups, the exact error of every call, success exactly outside the lists, and that a refused call changes nothing but the set of open side chains except for one case (C130_unchanged_partial). What happens in that case is proved too (C130_epoch_closed). That case is refuted (C130_epoch_refuted): an emission that closes an epoch rotates the databases and overwrites the root account before the new block is refused because the recorded height is not the one after the last block."
  }
 ]
}
