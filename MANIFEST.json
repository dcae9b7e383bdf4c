{
 "claims": [
  {
   "property": "C01",
   "status": "proved",
   "theorems": [
    "C01_conservation",
    "C01_loss_bound"
   ],
   "note": "(Props_Micropayment.v)"
  },
  {
   "property": "C02",
   "status": "proved",
   "theorems": [
    "C02_totals"
   ],
   "note": "(Props_Micropayment.v)"
  },
  {
   "property": "C03",
   "status": "proved",
   "theorems": [
    "C03_no_replay"
   ],
   "note": "(Props_Micropayment.v)"
  },
  {
   "property": "C04",
   "status": "proved",
   "theorems": [
    "C04_signature_needed"
   ],
   "note": "(Props_Micropayment.v)"
  },
  {
   "property": "C05",
   "status": "proved",
   "theorems": [
    "C05_consecutive_sessions"
   ],
   "note": "(Props_Micropayment.v)"
  },
  {
   "property": "C06",
   "status": "proved",
   "theorems": [
    "C06_channel_authority",
    "C06_stored_ends"
   ],
   "note": "(Props_Micropayment.v)"
  },
  {
   "property": "C07",
   "status": "proved",
   "theorems": [
    "C07_books"
   ],
   "note": "(Props_Micropayment.v)"
  },
  {
   "property": "C08",
   "status": "partial",
   "theorems": [
    "C08_overclaim_refuted",
    "C08_overclaim_is_noop"
   ],
   "note": "The statement is false of the code; the refutation is machine-checked. A claim above the balance is undone by its own error. Proved instead: it changes nothing, in every state. (Props_Micropayment.v)"
  },
  {
   "property": "C09",
   "status": "proved",
   "theorems": [
    "C09_close_effect",
    "C09_close_succeeds",
    "C09_claim_effect",
    "C09_client_close_effect",
    "C09_client_close_succeeds",
    "C09_claim_succeeds",
    "C09_close_expired_effect"
   ],
   "note": "(Props_Micropayment.v)"
  },
  {
   "property": "C10",
   "status": "proved",
   "theorems": [
    "C10_voucher_bytes_injective"
   ],
   "note": "(Props_Micropayment.v)"
  },
  {
   "property": "C11",
   "status": "proved",
   "theorems": [
    "C11_server_lists"
   ],
   "note": "(Props_DeeperNode.v)"
  },
  {
   "property": "C12",
   "status": "proved",
   "theorems": [
    "C12_lists_sorted"
   ],
   "note": "(Props_DeeperNode.v)"
  },
  {
   "property": "C13",
   "status": "proved",
   "theorems": [
    "C13_one_deposit",
    "C13_register_moves",
    "C13_unregister_refunds"
   ],
   "note": "(Props_DeeperNode.v)"
  },
  {
   "property": "C14",
   "status": "proved",
   "theorems": [
    "C14_onboard_records",
    "C14_onboard_permanent"
   ],
   "note": "(Props_DeeperNode.v)"
  },
  {
   "property": "C15",
   "status": "proved",
   "theorems": [
    "C15_binding_permanent",
    "C15_maps_back",
    "C15_binding_authorised"
   ],
   "note": "(Props_DeeperNode.v)"
  },
  {
   "property": "C16",
   "status": "partial",
   "theorems": [
    "C16_unbinding_refuted",
    "C16_old_address_dead_partial"
   ],
   "note": "The statement is false of the code; the refutation is machine-checked. The old address keeps resolving. Proved instead: it stays reserved for the account for ever. (Props_DeeperNode.v)"
  },
  {
   "property": "C17",
   "status": "proved",
   "theorems": [
    "C17_eras_offline",
    "C17_zero_after_heartbeat",
    "C17_monotone"
   ],
   "note": "(Props_DeeperNode.v)"
  },
  {
   "property": "C18",
   "status": "proved",
   "theorems": [
    "C18_levels"
   ],
   "note": "(Props_Credit.v)"
  },
  {
   "property": "C19",
   "status": "proved",
   "theorems": [
    "C19_history_ordered"
   ],
   "note": "(Props_Credit.v)"
  },
  {
   "property": "C20",
   "status": "proved",
   "theorems": [
    "C20_reward",
    "C20_claims_add_up"
   ],
   "note": "(Props_Credit.v)"
  },
  {
   "property": "C21",
   "status": "proved",
   "theorems": [
    "C21_disjoint"
   ],
   "note": "(Props_Staking2.v)"
  },
  {
   "property": "C22",
   "status": "proved",
   "theorems": [
    "C22_slash"
   ],
   "note": "(Props_Credit.v)"
  },
  {
   "property": "C23",
   "status": "partial",
   "theorems": [
    "C23_slash_without_credit_refuted",
    "C23_slash_without_credit_partial"
   ],
   "note": "The statement is false of the code; the refutation is machine-checked. Proved instead: exactly when a slash panics. (Props_Credit.v)"
  },
  {
   "property": "C24",
   "status": "partial",
   "theorems": [
    "C24_offline_slash_refuted",
    "C24_offline_slash_partial"
   ],
   "note": "The statement is false of the code; the refutation is machine-checked. Fails when the same claim switches the campaign; proved otherwise. (Props_Credit.v)"
  },
  {
   "property": "C25",
   "status": "partial",
   "theorems": [
    "C25_price_refuted",
    "C25_price_partial",
    "C25_submission"
   ],
   "note": "The statement is false of the code; the refutation is machine-checked. Fails when the sum of prices wraps at 2^128; proved otherwise, and every submission is checked. (Props_Credit.v)"
  },
  {
   "property": "C26",
   "status": "partial",
   "theorems": [
    "C26_burn_for_credit_refuted",
    "C26_burn_for_credit_partial"
   ],
   "note": "The statement is false of the code; the refutation is machine-checked. Fails from 2^32 points on (truncation); exact below. (Props_Credit.v)"
  },
  {
   "property": "C27",
   "status": "partial",
   "theorems": [
    "C27_nft_cap_refuted",
    "C27_nft_cap_partial"
   ],
   "note": "The statement is false of the code; the refutation is machine-checked. Fails when the total wraps (a class worth 2^63 points or more); proved otherwise. (Props_Credit.v)"
  },
  {
   "property": "C28",
   "status": "proved",
   "theorems": [
    "C28_traffic_interval",
    "C28_traffic_one_point"
   ],
   "note": "(Props_Credit.v)"
  },
  {
   "property": "C29",
   "status": "proved",
   "theorems": [
    "C29_bonus_helps"
   ],
   "note": "(Props_Credit.v)"
  },
  {
   "property": "C30",
   "status": "proved",
   "theorems": [
    "C30_nonces_count_up",
    "C30_no_replay"
   ],
   "note": "(Props_CreditAccumulation.v)"
  },
  {
   "property": "C31",
   "status": "partial",
   "theorems": [
    "C31_operator_key_partial",
    "C31_operator_key_refuted",
    "C31_signed_bytes",
    "C31_only_root_sets_keys"
   ],
   "note": "The statement is false of the code; the refutation is machine-checked. Fails while a key is unset (counts as the all-zero key). Proved: the exact acceptance condition. (Props_CreditAccumulation.v)"
  },
  {
   "property": "C32",
   "status": "proved",
   "theorems": [
    "C32_privileges_are_sets",
    "C32_root_calls_succeed"
   ],
   "note": "(Props_UserPrivileges.v)"
  },
  {
   "property": "C33",
   "status": "proved",
   "theorems": [
    "C33_force_origin"
   ],
   "note": "(Props_UserPrivileges.v)"
  },
  {
   "property": "C34",
   "status": "proved",
   "theorems": [
    "C34_stored_words_roundtrip",
    "C34_decode_rejects_junk",
    "C34_word_is_its_members",
    "C34_privilege_codec"
   ],
   "note": "(Props_UserPrivileges.v)"
  },
  {
   "property": "C35",
   "status": "partial",
   "theorems": [
    "C35_migration_refuted",
    "C35_migration_partial"
   ],
   "note": "The statement is false of the code; the refutation is machine-checked. Fails for accounts with several old roles; proved without overlap. (Props_UserPrivileges.v)"
  },
  {
   "property": "C36",
   "status": "proved",
   "theorems": [
    "C36_needs",
    "C36_effect",
    "C36_query"
   ],
   "note": "(Props_Precompile.v)"
  },
  {
   "property": "C37",
   "status": "partial",
   "theorems": [
    "C37_silent_failure_refuted",
    "C37_silent_failure_partial"
   ],
   "note": "The statement is false of the code; the refutation is machine-checked. Success is reported although nothing changed. Proved: the exact list of silent cases. (Props_Precompile.v)"
  },
  {
   "property": "C38",
   "status": "partial",
   "theorems": [
    "C38_advertised_refuted",
    "C38_advertised_partial"
   ],
   "note": "The statement is false of the code; the refutation is machine-checked. Fails for address 1030 only; proved for all others. (Props_Precompile.v)"
  },
  {
   "property": "C39",
   "status": "proved",
   "theorems": [
    "C39_once_a_day"
   ],
   "note": "(Props_Adsc.v)"
  },
  {
   "property": "C40",
   "status": "proved",
   "theorems": [
    "C40_period",
    "C40_added",
    "C40_amount",
    "C40_removal"
   ],
   "note": "(Props_Adsc.v)"
  },
  {
   "property": "C41",
   "status": "proved",
   "theorems": [
    "C41_halving"
   ],
   "note": "(Props_Adsc.v)"
  },
  {
   "property": "C42",
   "status": "partial",
   "theorems": [
    "C42_swap_refuted",
    "C42_swap_partial",
    "C42_no_panic_partial"
   ],
   "note": "The statement is false of the code; the refutation is machine-checked. Fails at a zero rate (panic) and when the product exceeds 128 bits; exact effect proved otherwise. (Props_Adsc.v)"
  },
  {
   "property": "C43",
   "status": "partial",
   "theorems": [
    "C43_exclusive_refuted",
    "C43_exclusive_partial"
   ],
   "note": "The statement is false of the code; the refutation is machine-checked. Fails if the owner burns a staked NFT; proved otherwise. (Props_Adsc.v)"
  },
  {
   "property": "C44",
   "status": "partial",
   "theorems": [
    "C44_total_refuted",
    "C44_total_partial",
    "C44_in_time_partial"
   ],
   "note": "The statement is false of the code; the refutation is machine-checked. Fails after skipped days; the excess is bounded and absent while in time. (Props_Operation.v)"
  },
  {
   "property": "C45",
   "status": "proved",
   "theorems": [
    "C45_single",
    "C45_daily",
    "C45_check"
   ],
   "note": "(Props_Operation.v)"
  },
  {
   "property": "C46",
   "status": "proved",
   "theorems": [
    "C46_once",
    "C46_days"
   ],
   "note": "(Props_Operation.v)"
  },
  {
   "property": "C47",
   "status": "proved",
   "theorems": [
    "C47_moves_out",
    "C47_moves_in",
    "C47_counters",
    "C47_pool"
   ],
   "note": "(Props_Operation.v)"
  },
  {
   "property": "C48",
   "status": "proved",
   "theorems": [
    "C48_paired"
   ],
   "note": "(Props_Staking.v)"
  },
  {
   "property": "C49",
   "status": "partial",
   "theorems": [
    "C49_total",
    "C49_lock_refuted",
    "C49_lock_partial"
   ],
   "note": "The statement is false of the code; the refutation is machine-checked. The total is proved in full. The lock fails after a slash of the whole stake; proved whenever something is left. (Props_Staking.v)"
  },
  {
   "property": "C50",
   "status": "partial",
   "theorems": [
    "C50_waits_partial",
    "C50_drop_partial",
    "C50_refuted"
   ],
   "note": "The statement is false of the code; the refutation is machine-checked. Fails for force_unstake, reaping and burning; proved: what is withdrawn waited, and the list of all other ways. (Props_Staking.v)"
  },
  {
   "property": "C51",
   "status": "proved",
   "theorems": [
    "C51_slash"
   ],
   "note": "(Props_Staking.v)"
  },
  {
   "property": "C52",
   "status": "proved",
   "theorems": [
    "C52_rebond"
   ],
   "note": "(Props_Staking.v)"
  },
  {
   "property": "C53",
   "status": "proved",
   "theorems": [
    "C53_election"
   ],
   "note": "(Props_Staking.v)"
  },
  {
   "property": "C54",
   "status": "proved",
   "theorems": [
    "C54_mirror"
   ],
   "note": "(Props_Staking2.v)"
  },
  {
   "property": "C55",
   "status": "proved",
   "theorems": [
    "C55_counts"
   ],
   "note": "(Props_Staking2.v)"
  },
  {
   "property": "C56",
   "status": "partial",
   "theorems": [
    "C56_refuted",
    "C56_pool_partial"
   ],
   "note": "The statement is false of the code; the refutation is machine-checked. Fails by rounding when the pool is nearly empty; proved: the exact bound with this overdraft named. (Props_Staking2.v)"
  },
  {
   "property": "C57",
   "status": "proved",
   "theorems": [
    "C57_once",
    "C57_reached"
   ],
   "note": "(Props_Staking2.v)"
  },
  {
   "property": "C58",
   "status": "proved",
   "theorems": [
    "C58_referrals"
   ],
   "note": "(Props_Staking2.v)"
  },
  {
   "property": "C59",
   "status": "proved",
   "theorems": [
    "C59_cancel"
   ],
   "note": "(Props_Staking.v)"
  },
  {
   "property": "C60",
   "status": "proved",
   "theorems": [
    "C60_booked",
    "C60_max"
   ],
   "note": "(Props_Staking.v, Props_Staking5.v)"
  },
  {
   "property": "C61",
   "status": "proved",
   "theorems": [
    "C61_partition",
    "C61_found",
    "C61_settled"
   ],
   "note": "(Props_Staking.v, Props_Staking3.v, Props_Staking5.v)"
  },
  {
   "property": "C62",
   "status": "partial",
   "theorems": [
    "C62_median",
    "C62_paid_partial",
    "C62_refuted"
   ],
   "note": "The statement is false of the code; the refutation is machine-checked. The announced amount is the median, always. The payment may silently fail; exact when the account can pay. (Props_Tips.v)"
  },
  {
   "property": "C63",
   "status": "partial",
   "theorems": [
    "C63_partial",
    "C63_coin",
    "C63_refuted"
   ],
   "note": "The statement is false of the code; the refutation is machine-checked. The half may have declared credit values; proved: half of the tippers declared something, and in full without credit values. (Props_Tips.v)"
  },
  {
   "property": "C64",
   "status": "partial",
   "theorems": [
    "C64_partial",
    "C64_refuted"
   ],
   "note": "The statement is false of the code; the refutation is machine-checked. Proved: exactly when a closing panics. (Props_Tips.v)"
  },
  {
   "property": "C65",
   "status": "proved",
   "theorems": [
    "C65_reasons",
    "C65_deposits",
    "C65_release"
   ],
   "note": "(Props_Tips.v)"
  },
  {
   "property": "C66",
   "status": "proved",
   "theorems": [
    "C66_cap",
    "C66_score"
   ],
   "note": "(Props_Tips.v)"
  },
  {
   "property": "C67",
   "status": "partial",
   "theorems": [
    "C67_full_refund_refuted",
    "C67_refund_partial"
   ],
   "note": "The statement is false of the code; the refutation is machine-checked. The burn fee is taken from the refund. Proved: this fee is all the client loses, except dust when no fee is due. (Props_Micropayment.v)"
  },
  {
   "property": "C68",
   "status": "partial",
   "theorems": [
    "C68_close_always_possible_refuted",
    "C68_close_partial"
   ],
   "note": "The statement is false of the code; the refutation is machine-checked. A small channel of an emptied account cannot be closed by anyone. Proved: exactly when a close succeeds. (Props_Micropayment.v)"
  },
  {
   "property": "C69",
   "status": "proved",
   "theorems": [
    "C69_open_effect",
    "C69_open_succeeds",
    "C69_add_effect",
    "C69_add_succeeds"
   ],
   "note": "(Props_Micropayment.v)"
  },
  {
   "property": "C70",
   "status": "partial",
   "theorems": [
    "C70_proof_content_refuted",
    "C70_proof_signed_partial"
   ],
   "note": "The statement is false of the code; the refutation is machine-checked. The signature does not cover the content; proved: it covers nonce and sender. (Props_DeeperNode.v)"
  },
  {
   "property": "C71",
   "status": "proved",
   "theorems": [
    "C71_burn_totals"
   ],
   "note": "(Props_Credit.v)"
  },
  {
   "property": "C72",
   "status": "proved",
   "theorems": [
    "C72_unprivileged"
   ],
   "note": "(Props_Credit.v)"
  },
  {
   "property": "C73",
   "status": "partial",
   "theorems": [
    "C73_genesis_schedule_partial",
    "C73_genesis_schedule_refuted"
   ],
   "note": "The statement is false of the code; the refutation is machine-checked. The block schedule is proved; the runtime upgrade misses it. (Props_Credit.v)"
  },
  {
   "property": "C74",
   "status": "proved",
   "theorems": [
    "C74_unstaking"
   ],
   "note": "(Props_Credit.v)"
  },
  {
   "property": "C75",
   "status": "partial",
   "theorems": [
    "C75_delegated_privilege_refuted",
    "C75_delegated_privilege_partial"
   ],
   "note": "The statement is false of the code; the refutation is machine-checked. Fails for delegated calls; proved for all other kinds. (Props_Precompile.v)"
  },
  {
   "property": "C76",
   "status": "partial",
   "theorems": [
    "C76_amount_truncated_refuted",
    "C76_amount_truncated_partial"
   ],
   "note": "The statement is false of the code; the refutation is machine-checked. Only the low 64 bits count; exact effect modulo 2^64 proved. (Props_Precompile.v)"
  },
  {
   "property": "C77",
   "status": "proved",
   "theorems": [
    "C77_everyone_served"
   ],
   "note": "(Props_Adsc.v)"
  },
  {
   "property": "C78",
   "status": "proved",
   "theorems": [
    "C78_reward_cap"
   ],
   "note": "(Props_Adsc.v)"
  },
  {
   "property": "C79",
   "status": "proved",
   "theorems": [
    "C79_supply",
    "C79_bridge"
   ],
   "note": "(Props_Adsc.v)"
  },
  {
   "property": "C80",
   "status": "proved",
   "theorems": [
    "C80_unprivileged",
    "C80_root"
   ],
   "note": "(Props_Adsc.v)"
  },
  {
   "property": "C81",
   "status": "proved",
   "theorems": [
    "C81_roles",
    "C81_unprivileged"
   ],
   "note": "(Props_Operation.v)"
  },
  {
   "property": "C82",
   "status": "proved",
   "theorems": [
    "C82_money",
    "C82_totals"
   ],
   "note": "(Props_Operation.v)"
  },
  {
   "property": "C83",
   "status": "proved",
   "theorems": [
    "C83_burn"
   ],
   "note": "(Props_Operation.v)"
  },
  {
   "property": "C84",
   "status": "proved",
   "theorems": [
    "C84_served"
   ],
   "note": "(Props_Operation.v)"
  },
  {
   "property": "C85",
   "status": "partial",
   "theorems": [
    "C85_stuck",
    "C85_recovery_refuted"
   ],
   "note": "The statement is false of the code; the refutation is machine-checked. Proved instead: once the due amount exceeds the single maximum the schedule is never paid again. (Props_Operation.v)"
  },
  {
   "property": "C86",
   "status": "partial",
   "theorems": [
    "C86_consent_refuted",
    "C86_admin_partial"
   ],
   "note": "The statement is false of the code; the refutation is machine-checked. A bridge admin alone moves the money; proved: what the admin has to name. (Props_Operation.v)"
  },
  {
   "property": "C87",
   "status": "partial",
   "theorems": [
    "C87_dust_refuted",
    "C87_covered_partial"
   ],
   "note": "The statement is false of the code; the refutation is machine-checked. Fails for dust to a new account; proved: money paid is at most the total. (Props_Operation.v)"
  },
  {
   "property": "C88",
   "status": "proved",
   "theorems": [
    "C88_authority"
   ],
   "note": "(Props_Staking.v)"
  },
  {
   "property": "C89",
   "status": "proved",
   "theorems": [
    "C89_reserve",
    "C89_remove",
    "C89_unlock",
    "C89_apply"
   ],
   "note": "(Props_Operation2.v)"
  },
  {
   "property": "C90",
   "status": "proved",
   "theorems": [
    "C90_authority"
   ],
   "note": "(Props_Tips.v)"
  },
  {
   "property": "C91",
   "status": "partial",
   "theorems": [
    "C91_partial",
    "C91_refuted"
   ],
   "note": "The statement is false of the code; the refutation is machine-checked. Tips opened by tip_new can be retracted too; proved: only by the opener, who gets exactly the deposit. (Props_Tips.v)"
  },
  {
   "property": "C92",
   "status": "proved",
   "theorems": [
    "C92_money",
    "C92_loss"
   ],
   "note": "(Props_Tips.v)"
  },
  {
   "property": "C93",
   "status": "proved",
   "theorems": [
    "C93_money",
    "C93_run",
    "C93_loss"
   ],
   "note": "(Props_Staking3.v)"
  },
  {
   "property": "C94",
   "status": "proved",
   "theorems": [
    "C94_applied",
    "C94_queued",
    "C94_kept"
   ],
   "note": "(Props_Staking3.v)"
  },
  {
   "property": "C95",
   "status": "proved",
   "theorems": [
    "C95_pay"
   ],
   "note": "(Props_Staking4.v)"
  },
  {
   "property": "C96",
   "status": "proved",
   "theorems": [
    "C96_points"
   ],
   "note": "(Props_Staking4.v)"
  },
  {
   "property": "C97",
   "status": "proved",
   "theorems": [
    "C97_roles"
   ],
   "note": "(Props_Elections.v)"
  },
  {
   "property": "C98",
   "status": "proved",
   "theorems": [
    "C98_reserved",
    "C98_bonds"
   ],
   "note": "(Props_Elections.v)"
  },
  {
   "property": "C99",
   "status": "proved",
   "theorems": [
    "C99_own"
   ],
   "note": "(Props_Elections.v)"
  },
  {
   "property": "C100",
   "status": "proved",
   "theorems": [
    "C100_refund",
    "C100_possible"
   ],
   "note": "(Props_Elections.v)"
  },
  {
   "property": "C101",
   "status": "proved",
   "theorems": [
    "C101_outcome",
    "C101_nothing"
   ],
   "note": "(Props_Elections.v)"
  },
  {
   "property": "C102",
   "status": "proved",
   "theorems": [
    "C102_ranking",
    "C102_replaced"
   ],
   "note": "(Props_Elections.v)"
  },
  {
   "property": "C103",
   "status": "proved",
   "theorems": [
    "C103_borda",
    "C103_member",
    "C103_kept"
   ],
   "note": "(Props_Elections.v)"
  },
  {
   "property": "C104",
   "status": "partial",
   "theorems": [
    "C104_partial",
    "C104_change",
    "C104_refuted"
   ],
   "note": "The statement is false of the code; the refutation is machine-checked. Members named at genesis are not announced; proved from the first change on. (Props_Elections.v)"
  },
  {
   "property": "C105",
   "status": "proved",
   "theorems": [
    "C105_origin",
    "C105_seat",
    "C105_removed"
   ],
   "note": "(Props_Elections2.v)"
  },
  {
   "property": "C106",
   "status": "proved",
   "theorems": [
    "C106_stay",
    "C106_clean",
    "C106_unvote"
   ],
   "note": "(Props_Elections2.v)"
  },
  {
   "property": "C107",
   "status": "partial",
   "theorems": [
    "C107_partial",
    "C107_unlocked",
    "C107_refuted"
   ],
   "note": "The statement is false of the code; the refutation is machine-checked. Fails for members named at genesis; proved for all other votes. (Props_Elections2.v)"
  },
  {
   "property": "C108",
   "status": "proved",
   "theorems": [
    "C108_when",
    "C108_rounds"
   ],
   "note": "(Props_Elections2.v)"
  },
  {
   "property": "C109",
   "status": "proved",
   "theorems": [
    "C109_identity"
   ],
   "note": "(Props_Elections2.v)"
  },
  {
   "property": "C110",
   "status": "partial",
   "theorems": [
    "C110_partial",
    "C110_refuted"
   ],
   "note": "The statement is false of the code; the refutation is machine-checked. Off by one; the bound max + 1 is proved. (Props_Elections2.v)"
  },
  {
   "property": "C111",
   "status": "partial",
   "theorems": [
    "C111_partial",
    "C111_refuted"
   ],
   "note": "The statement is false of the code; the refutation is machine-checked. Beyond the limit no election succeeds; proved: exactly this, and up to the limit all votes count. (Props_Elections2.v)"
  },
  {
   "property": "C112",
   "status": "partial",
   "theorems": [
    "C112_partial",
    "C112_refuted"
   ],
   "note": "The statement is false of the code; the refutation is machine-checked. The election is held in either case; proved: removal with election is removal followed by an election. (Props_Elections2.v)"
  },
  {
   "property": "C113",
   "status": "partial",
   "theorems": [
    "C113_partial",
    "C113_refuted"
   ],
   "note": "The statement is false of the code; the refutation is machine-checked. Repetitions count for the prime; proved when no ballot repeats a name. (Props_Elections2.v)"
  },
  {
   "property": "C114",
   "status": "proved",
   "theorems": [
    "C114_money"
   ],
   "note": "(Props_Elections2.v)"
  },
  {
   "property": "C115",
   "status": "proved",
   "theorems": [
    "C115_vote"
   ],
   "note": "(Props_Elections2.v)"
  },
  {
   "property": "C116",
   "status": "proved",
   "theorems": [
    "C116_submit"
   ],
   "note": "(Props_Elections2.v)"
  },
  {
   "property": "C117",
   "status": "proved",
   "theorems": [
    "C117_bonded",
    "C117_stands",
    "C117_payee",
    "C117_kicked"
   ],
   "note": "(Props_Staking6.v)"
  },
  {
   "property": "C118",
   "status": "proved",
   "theorems": [
    "C118_force",
    "C118_reap",
    "C118_withdraw",
    "C118_effect"
   ],
   "note": "(Props_Staking6.v)"
  },
  {
   "property": "C119",
   "status": "proved",
   "theorems": [
    "C119_iff",
    "C119_effect",
    "C119_chosen"
   ],
   "note": "(Props_Staking6.v)"
  },
  {
   "property": "C120",
   "status": "partial",
   "theorems": [
    "C120_refuted",
    "C120_partial"
   ],
   "note": "The statement is false of the code; the refutation is machine-checked. validate does not refuse delegators; proved: delegate refuses validators. (Props_Staking6.v)"
  },
  {
   "property": "C121",
   "status": "proved",
   "theorems": [
    "C121_kinds",
    "C121_order"
   ],
   "note": "(Props_Runtime.v)"
  },
  {
   "property": "C122",
   "status": "partial",
   "theorems": [
    "C122_refuted",
    "C122_partial",
    "C122_narrow"
   ],
   "note": "The statement is false of the code; the refutation is machine-checked. NonTransfer lets a proxy set up a recovery; proved as long as the account sets up none, and in full for the other kinds. (Props_Runtime.v)"
  },
  {
   "property": "C123",
   "status": "partial",
   "theorems": [
    "C123_refuted",
    "C123_partial"
   ],
   "note": "The statement is false of the code; the refutation is machine-checked. Fails through a principal that is itself a proxy; proved for calls without such a detour. (Props_Runtime.v)"
  },
  {
   "property": "C124",
   "status": "proved",
   "theorems": [
    "C124_paused",
    "C124_protected"
   ],
   "note": "(Props_Runtime.v)"
  },
  {
   "property": "C125",
   "status": "partial",
   "theorems": [
    "C125_refuted",
    "C125_partial"
   ],
   "note": "The statement is false of the code; the refutation is machine-checked. Pausing Timestamp::set ends the chain; proved while it is not paused. (Props_Runtime.v)"
  },
  {
   "property": "C126",
   "status": "partial",
   "theorems": [
    "C126_refuted",
    "C126_partial"
   ],
   "note": "The statement is false of the code; the refutation is machine-checked. Proved instead: exactly the calls of Sudo, System and TxPause are beyond pausing. (Props_Runtime.v)"
  },
  {
   "property": "C127",
   "status": "proved",
   "theorems": [
    "C127_migrated",
    "C127_once"
   ],
   "note": "(Props_Migration.v)"
  },
  {
   "property": "C128",
   "status": "proved",
   "theorems": [
    "C128_shares",
    "C128_conserved"
   ],
   "note": "(Props_Fees.v)"
  },
  {
   "property": "C129",
   "status": "partial",
   "theorems": [
    "C129_refuted",
    "C129_partial",
    "C129_charged"
   ],
   "note": "The statement is false of the code; the refutation is machine-checked. The refund is lost if the call removes the account; proved when the account lives on, and what happens otherwise. (Props_Fees.v)"
  },
  {
   "property": "C130",
   "status": "proved",
   "theorems": [
    "C130_mandate",
    "C130_votes"
   ],
   "note": "(Props_Council.v)"
  },
  {
   "property": "C131",
   "status": "partial",
   "theorems": [
    "C131_refuted",
    "C131_partial",
    "C131_proportions"
   ],
   "note": "The statement is false of the code; the refutation is machine-checked. Half is enough and silence follows the prime; proved: the exact mandate behind every power. (Props_Council.v)"
  },
  {
   "property": "C132",
   "status": "partial",
   "theorems": [
    "C132_refuted",
    "C132_partial"
   ],
   "note": "The statement is false of the code; the refutation is machine-checked. Silence follows the prime; proved: nobody sitting stands against it. (Props_Council.v)"
  },
  {
   "property": "C133",
   "status": "proved",
   "theorems": [
    "C133_bounds",
    "C133_moves",
    "C133_lasting",
    "C133_order"
   ],
   "note": "(Props_Price.v)"
  },
  {
   "property": "C134",
   "status": "proved",
   "theorems": [
    "C134_pace",
    "C134_day"
   ],
   "note": "(Props_Price.v)"
  },
  {
   "property": "C135",
   "status": "proved",
   "theorems": [
    "C135_actual",
    "C135_order",
    "C135_fee"
   ],
   "note": "(Props_Price.v)"
  },
  {
   "property": "C136",
   "status": "proved",
   "theorems": [
    "C136_eras",
    "C136_regular"
   ],
   "note": "(Props_Staking7.v)"
  },
  {
   "property": "C137",
   "status": "proved",
   "theorems": [
    "C137_schedule",
    "C137_mode"
   ],
   "note": "(Props_Staking7.v)"
  },
  {
   "property": "C138",
   "status": "proved",
   "theorems": [
    "C138_era"
   ],
   "note": "(Props_Staking7.v)"
  },
  {
   "property": "C139",
   "status": "proved",
   "theorems": [
    "C139_when",
    "C139_once",
    "C139_who"
   ],
   "note": "(Props_Staking7.v)"
  },
  {
   "property": "C140",
   "status": "partial",
   "theorems": [
    "C140_partial",
    "C140_refuted"
   ],
   "note": "The statement is false of the code; the refutation is machine-checked. Validators kept on by a failed election earn points but no pay; proved: those elected are paid. (Props_Staking7.v)"
  },
  {
   "property": "C141",
   "status": "partial",
   "theorems": [
    "C141_refuted",
    "C141_partial"
   ],
   "note": "The statement is false of the code; the refutation is machine-checked. A report that disables a validator overrides force_no_eras; proved: nothing else does. (Props_Staking7.v)"
  },
  {
   "property": "C142",
   "status": "proved",
   "theorems": [
    "C142_earned",
    "C142_full"
   ],
   "note": "(Props_Chain.v)"
  },
  {
   "property": "C143",
   "status": "partial",
   "theorems": [
    "C143_cause",
    "C143_refuted",
    "C143_price_refuted",
    "C143_partial"
   ],
   "note": "The statement is false of the code; the refutation is machine-checked. force_unstaking_delegate erases a credit record that a deferred slash still needs: every later session start panics. Two prices of 2^127 make the price zero and the next payment panics. Proved: the exact cause, and that nothing panics if neither happens. (Props_Chain2.v)"
  },
  {
   "property": "C144",
   "status": "partial",
   "theorems": [
    "C144_refuted",
    "C144_partial"
   ],
   "note": "The statement is false of the code; the refutation is machine-checked. False: the EVM, the end of a stake, an offline node and the officers' writes take credit without touching the delegation, which goes on counting in elections. Proved: these are the only ways; every delegator short of credit was eligible until such a step. (Props_Chain3.v)"
  },
  {
   "property": "C145",
   "status": "partial",
   "theorems": [
    "C145_refuted",
    "C145_partial"
   ],
   "note": "The statement is false of the code; the refutation is machine-checked. False: leaving in the era of the last payment and joining again restarts the reward period. Proved: unless the credit history is rewritten by root or the EVM, the pay is at most (number of times the account became a delegator) x (length of the period) x (daily pay). (Props_Chain4.v)"
  },
  {
   "property": "C146",
   "status": "partial",
   "theorems": [
    "C146_refuted",
    "C146_partial",
    "C146_stay"
   ],
   "note": "The statement is false of the code; the refutation is machine-checked. False: who leaves in a block in which the clock is in a later era than the staking pallet, before being paid, is struck off and never paid. Proved: what each step does to the first unpaid era, that this is the only loss, and that for as long as the account is on the books the eras asked for tile the time without gap or repetition. (Props_Chain4.v)"
  },
  {
   "property": "C147",
   "status": "proved",
   "theorems": [
    "C147_recorded"
   ],
   "note": "Joint model. The exceptions named in the statement are force_set_credit_history and the penalty u64::MAX. (Props_Chain4.v)"
  },
  {
   "property": "C148",
   "status": "partial",
   "theorems": [
    "C148_refuted",
    "C148_partial",
    "C148_usdt_partial"
   ],
   "note": "The statement is false of the code; the refutation is machine-checked. False: a number above 8 counts as level zero in the score, so on a price list of more than nine levels the buyer of level 9 pays and gets nothing. Proved for levels up to 8, for purchases in DPR and in USDT. (Props_Chain5.v)"
  },
  {
   "property": "C149",
   "status": "proved",
   "theorems": [
    "C149_powers",
    "C149_never"
   ],
   "note": "Model of the nine pallets over one set of balances. Calls of the ADSC bridge and of the credit precompile succeed without effect when unauthorised; the theorem is about calls with an effect. The elected members and the origin rejecting tips come from outside. (Props_World.v)"
  },
  {
   "property": "C150",
   "status": "proved",
   "theorems": [
    "C150_supply",
    "C150_who"
   ],
   "note": "Total below 2^128, beyond which u128 wraps. Other pallets move money and reserve it but make none. (Props_World.v)"
  },
  {
   "property": "C151",
   "status": "proved",
   "theorems": [
    "C151_deposits"
   ],
   "note": "Needs hashes of reports without collisions, and the total below 2^128. (Props_World.v)"
  },
  {
   "property": "C152",
   "status": "proved",
   "theorems": [
    "C152_refines"
   ],
   "note": "The models of micropayment and deeper-node have no steps for balances moved by others; they are not stated as refined, though C150 and C151 use their step lemmas. Proof accumulation is a part of the state of its own. (Props_World2.v)"
  },
  {
   "property": "C153",
   "status": "proved",
   "theorems": [
    "C153_mints",
    "C153_day",
    "C153_ceiling"
   ],
   "note": "The pool's rounding and the bounds on points are those of C56. (Props_World2.v)"
  },
  {
   "property": "C154",
   "status": "proved",
   "theorems": [
    "C154_causes",
    "C154_heartbeat",
    "C154_slash"
   ],
   "note": "C154_causes lists the causes, C154_heartbeat the safe case, C154_slash the size of a slash. (Props_World3.v)"
  },
  {
   "property": "C155",
   "status": "partial",
   "theorems": [
    "C155_refuted",
    "C155_partial"
   ],
   "note": "The statement is false of the code; the refutation is machine-checked. False both ways: whether the device is slashed is decided when its delegator is paid, from whole eras since the last heartbeat. As delegators join or leave the payment moves within the era, so the fourth era of silence can be missed or met twice (C155_refuted). C155_partial: what one payout costs, exactly. (Props_World3.v)"
  },
  {
   "property": "C156",
   "status": "proved",
   "theorems": [
    "C156_authorities",
    "C156_history",
    "C156_never"
   ],
   "note": "The keys of the session pallet are taken to be complete, and inc_consumers to succeed for the stashes; SessionsPerEra is above one. The genesis of elections, society and other library pallets is not built. (Props_Genesis.v)"
  },
  {
   "property": "C157",
   "status": "partial",
   "theorems": [
    "C157_built",
    "C157_delegations",
    "C157_refuted",
    "C157_partial"
   ],
   "note": "The statement is false of the code; the refutation is machine-checked. False twice: entries of stakers with a stash or controller named before, or below the deposit, are dropped silently (C157_refuted), and a specification with delegations is never built, because staking is built before credit (C157_delegations). C157_built: exactly which specifications are built. C157_partial: with distinct stashes and controllers and deposits reached, every entry is honoured and nothing else is there. (Props_Genesis.v)"
  },
  {
   "property": "C158",
   "status": "partial",
   "theorems": [
    "C158_refuted",
    "C158_partial",
    "C158_offers",
    "C158_sale"
   ],
   "note": "The statement is false of the code; the refutation is machine-checked. pallet_uniques is trusted environment. False: when an ADSC stake ends, its NFT is destroyed whoever holds it by then; a buyer loses it (C158_refuted). C158_partial: apart from the end or renewal of the stake, only consent takes an NFT; C158_offers, C158_sale: prices and approvals stand from the present holder, a sale pays the price. (Props_Nfts.v)"
  },
  {
   "property": "C159",
   "status": "proved",
   "theorems": [
    "C159_once",
    "C159_gone"
   ],
   "note": "pallet_uniques is trusted environment. (Props_Nfts.v)"
  },
  {
   "property": "C160",
   "status": "partial",
   "theorems": [
    "C160_refuted",
    "C160_partial"
   ],
   "note": "The statement is false of the code; the refutation is machine-checked. pallet_uniques is trusted environment. False: the price is kept for a number; whoever creates a collection with that number, after it was destroyed or before it exists, issues NFTs worth credit (C160_refuted). C160_partial: while the owner and Root leave the team alone, only its issuer and credit admins make NFTs. (Props_Nfts.v)"
  },
  {
   "property": "C161",
   "status": "partial",
   "theorems": [
    "C161_refuted",
    "C161_partial"
   ],
   "note": "The statement is false of the code; the refutation is machine-checked. pallet_uniques is trusted environment. False: a staker burns the NFT of the stake for credit and is still paid for the stake (C161_refuted). C161_partial: if no collection is used for both. (Props_Nfts.v)"
  },
  {
   "property": "C162",
   "status": "partial",
   "theorems": [
    "C162_partial",
    "C162_refuted"
   ],
   "note": "The statement is false of the code; the refutation is machine-checked. pallet_uniques is trusted environment. False: when the NFT of the old stake was burnt, no new one can be given (C162_refuted). C162_partial: exactly when it works, in every state. (Props_Nfts.v)"
  },
  {
   "property": "C163",
   "status": "proved",
   "theorems": [
    "C163_more",
    "C163_graded",
    "C163_development"
   ],
   "note": "C163_more: the comparison, in every reachable state with rising settings. C163_graded: they stay rising. C163_needs_graded shows the assumption is needed; campaign_0 (the table of the development chains) meets it. (Props_Settings.v)"
  },
  {
   "property": "C164",
   "status": "proved",
   "theorems": [
    "C164_year",
    "C164_dollars"
   ],
   "note": "C164_year: base and bonus tables of every reachable state against the settings. C164_dollars: campaign 5. A referral deduction is taken off before; the property is stated without one. (Props_Settings.v)"
  },
  {
   "property": "C165",
   "status": "proved",
   "theorems": [
    "C165_books",
    "C165_replay",
    "C165_sessions",
    "C165_authority"
   ],
   "note": "C165_books, C165_replay, C165_sessions, C165_authority: the guarantees of C01-C06 restated over histories of the whole chain (Model_World). (Props_World4.v)"
  },
  {
   "property": "C166",
   "status": "proved",
   "theorems": [
    "C166_lists",
    "C166_onboard",
    "C166_bound",
    "C166_addresses"
   ],
   "note": "C166_lists with the region table of the code; C166_onboard, C166_bound, C166_addresses for any configuration. (Props_World4.v)"
  },
  {
   "property": "C167",
   "status": "proved",
   "theorems": [
    "C167_refund",
    "C167_paid"
   ],
   "note": "C167_refund and C167_paid. A channel in the other direction is settled by the same call (Props_Micropayment); C167_refund is stated for one without. The treasury's own channels are left out: the fee comes back to it. (Props_World4.v)"
  },
  {
   "property": "C168",
   "status": "partial",
   "theorems": [
    "C168_any",
    "C168_refuted",
    "C168_own",
    "C168_partial"
   ],
   "note": "The statement is false of the code; the refutation is machine-checked. False (C168_refuted): the signature covers key, nonce and account only; reward_mapping and report_credit_proof check no nonce, so one signature binds any number of free EVM addresses for ever (C168_any: in every state) and reports any figures. C168_own: it serves no other account, in any of the four calls that check one. C168_partial: as a traffic claim it is taken once. C168_levels: one signature buys two levels. (Props_World4.v)"
  },
  {
   "property": "C169",
   "status": "partial",
   "theorems": [
    "C169_refuted",
    "C169_partial",
    "C169_accounts"
   ],
   "note": "The statement is false of the code; the refutation is machine-checked. False (C169_refuted: an account without privileges closes a tip valued in credit with close_tip). C169_partial: the exact list of calls and states that panic; C169_accounts: the calls of an account that never do. Hooks: C143. (Props_World5.v)"
  },
  {
   "property": "C170",
   "status": "proved",
   "theorems": [
    "C170_migrated"
   ],
   "note": "(Props_TipsMigration.v)"
  },
  {
   "property": "C171",
   "status": "partial",
   "theorems": [
    "C171_lost",
    "C171_refuted",
    "C171_partial"
   ],
   "note": "The statement is false of the code; the refutation is machine-checked. False (C171_refuted): the zero account that the first run writes for a missing finder reads as an old tip without finder, closing block and votes. C171_partial: tips whose finder does not start with byte 0 or 1 stay for any number of runs. (Props_TipsMigration.v)"
  },
  {
   "property": "C172",
   "status": "proved",
   "theorems": [
    "C172_step",
    "C172_others",
    "C172_bill"
   ],
   "note": "(Props_World6.v)"
  },
  {
   "property": "C173",
   "status": "partial",
   "theorems": [
    "C173_leave_partial",
    "C173_room_partial",
    "C173_refuted"
   ],
   "note": "The statement is false of the code; the refutation is machine-checked. False (C173_refuted): with 32 unlocking chunks the call of unbond is refused. C173_leave_partial: with fewer chunks leaving works as stated; C173_room_partial: after the bonding duration a withdrawal leaves no chunk. (Props_Staking8.v)"
  },
  {
   "property": "C174",
   "status": "proved",
   "theorems": [
    "C174_others",
    "C174_always"
   ],
   "note": "(Props_World7.v)"
  },
  {
   "property": "C175",
   "status": "partial",
   "theorems": [
    "C175_refuted",
    "C175_address_refuted",
    "C175_partial"
   ],
   "note": "The statement is false of the code; the refutation is machine-checked. False (C175_refuted, C175_address_refuted): naming an account one's controller keeps it from being its own controller; an address for rewards goes to whoever asks first. C175_partial: the calls that manage a stake, end a delegation and keep or give up a device cannot be prevented. (Props_World7.v)"
  },
  {
   "property": "C176",
   "status": "proved",
   "theorems": [
    "C176_number",
    "C176_hash",
    "C176_bytes",
    "C176_only"
   ],
   "note": "(Props_Inspect.v)"
  },
  {
   "property": "C177",
   "status": "proved",
   "theorems": [
    "C177_number",
    "C177_hash",
    "C177_bytes"
   ],
   "note": "(Props_Inspect.v)"
  },
  {
   "property": "C178",
   "status": "partial",
   "theorems": [
    "C178_partial",
    "C178_refuted",
    "C178_never"
   ],
   "note": "The statement is false of the code; the refutation is machine-checked. False (C178_refuted, C178_never): with a space between, number and index are read as bytes of an encoded extrinsic, whatever they are. C178_partial: colon and dot work. (Props_Inspect.v)"
  },
  {
   "property": "C179",
   "status": "partial",
   "theorems": [
    "C179_partial",
    "C179_order_partial",
    "C179_refuted"
   ],
   "note": "The statement is false of the code; the refutation is machine-checked. False (C179_refuted): an emptied account loses its nonce, so an immortal transaction takes effect again once the account has money again. C179_partial, C179_order_partial: true while the account is not removed and its nonce has not gone round. (Props_Extrinsic.v)"
  },
  {
   "property": "C180",
   "status": "proved",
   "theorems": [
    "C180_scope",
    "C180_period"
   ],
   "note": "(Props_Extrinsic.v)"
  },
  {
   "property": "C181",
   "status": "proved",
   "theorems": [
    "C181_taken"
   ],
   "note": "(Props_Extrinsic.v)"
  },
  {
   "property": "C182",
   "status": "partial",
   "theorems": [
    "C182_delegators",
    "C182_quota",
    "C182_adsc_partial",
    "C182_adsc_refuted",
    "C182_releases_partial",
    "C182_releases_end",
    "C182_releases_refuted",
    "C182_loops"
   ],
   "note": "The statement is false of the code; the refutation is machine-checked. True for delegators (C182_delegators, C182_quota). False for ADSC stakers (C182_adsc_refuted: silent ones are passed over without being counted, any number in one block) and for release schedules (C182_releases_refuted: schedules that begin later). C182_adsc_partial and C182_releases_partial bound the payments made in a block; C182_loops ties the counts to the loops. (Props_Meter.v)"
  },
  {
   "property": "C183",
   "status": "partial",
   "theorems": [
    "C183_delegators",
    "C183_payments",
    "C183_rounds",
    "C183_adsc_partial",
    "C183_adsc_refuted",
    "C183_releases_refuted"
   ],
   "note": "The statement is false of the code; the refutation is machine-checked. True for delegators (C183_delegators). False for ADSC (C183_adsc_refuted: four reads and a write are reported for any number of silent stakers; C183_adsc_partial: true without silent stakers) and for releases (C183_releases_refuted: the pallet reports nothing). (Props_Meter.v)"
  },
  {
   "property": "C184",
   "status": "proved",
   "theorems": [
    "C184_list",
    "C184_changes",
    "C184_add",
    "C184_remove",
    "C184_clear"
   ],
   "note": "(Props_Proxy.v)"
  },
  {
   "property": "C185",
   "status": "partial",
   "theorems": [
    "C185_refuted",
    "C185_delay_refuted",
    "C185_partial",
    "C185_first"
   ],
   "note": "The statement is false of the code; the refutation is machine-checked. True when the kind is named (C185_partial) and when it is the first declared of the delegate's kinds (C185_first). False otherwise (C185_refuted: Governance hides Staking; C185_delay_refuted: a delayed Any hides an immediate Staking). (Props_Proxy.v)"
  },
  {
   "property": "C186",
   "status": "proved",
   "theorems": [
    "C186_promise",
    "C186_most",
    "C186_shares"
   ],
   "note": "(Props_Reporter.v)"
  },
  {
   "property": "C187",
   "status": "partial",
   "theorems": [
    "C187_supply_partial",
    "C187_same_partial",
    "C187_holdings_partial",
    "C187_usable_partial",
    "C187_refuted",
    "C187_new_chain_refuted",
    "C187_promise_refuted"
   ],
   "note": "The statement is false of the code; the refutation is machine-checked. True if nobody creates asset 0 before the upgrade that is to create it (C187_supply_partial, C187_same_partial, C187_holdings_partial, C187_usable_partial). False otherwise (C187_refuted: an account that created it first mints ADSC and swaps it for the pool; C187_new_chain_refuted: on a new chain no upgrade creates it). (Props_Assets.v)"
  },
  {
   "property": "C188",
   "status": "partial",
   "theorems": [
    "C188_record_partial",
    "C188_limit_partial",
    "C188_never_ends_refuted",
    "C188_refuted",
    "C188_offer_refuted"
   ],
   "note": "The statement is false of the code; the refutation is machine-checked. The record is exact and limited (C188_record_partial, C188_limit_partial). The list does not follow it: nothing ever takes an expired server off the lists (C188_never_ends_refuted, C188_refuted), and update_server gives a time to a device that is not listed. An offer by a device that serves already is accepted and changes nothing (C188_offer_refuted). (Props_Lease.v)"
  },
  {
   "property": "C189",
   "status": "proved",
   "theorems": [
    "C189_reasons",
    "C189_eras",
    "C189_kept"
   ],
   "note": "(Props_Record.v)"
  },
  {
   "property": "C190",
   "status": "partial",
   "theorems": [
    "C190_record_partial",
    "C190_holds_partial",
    "C190_refuted",
    "C190_dust_refuted"
   ],
   "note": "The statement is false of the code; the refutation is machine-checked. The record is what was put in (C190_record_partial) and what the pool holds as long as nobody swaps (C190_holds_partial). False otherwise (C190_refuted: swaps are not taken off; C190_dust_refuted: an addition below the existential deposit is recorded although it never arrives). (Props_Pool.v)"
  },
  {
   "property": "C191",
   "status": "partial",
   "theorems": [
    "C191_dollars_partial",
    "C191_dpr_partial",
    "C191_kinds_partial",
    "C191_refuted"
   ],
   "note": "The statement is false of the code; the refutation is machine-checked. The dollars on record are those entered and not cleared (C191_dollars_partial); they are entered by credit admins only and for accounts without a record or of campaign 5 (C191_kinds_partial); who buys levels with DPR has a record of the kind of the default campaign (C191_dpr_partial). False: giving a stake back leaves its dollars on record while the account's record begins anew in a DPR campaign (C191_refuted). (Props_Dollars.v)"
  },
  {
   "property": "C192",
   "status": "partial",
   "theorems": [
    "C192_written_partial",
    "C192_most_partial",
    "C192_allowed_refuted",
    "C192_paid_refuted"
   ],
   "note": "The statement is false of the code; the refutation is machine-checked. The number of referees changes only by being written within the limit of that moment or by becoming zero (C192_written_partial), so it never exceeds what some setting allowed at some time (C192_most_partial). False: an account that moves to another campaign keeps a number that campaign does not allow (C192_allowed_refuted); referees earn nothing, while the reward of every account of the level is lowered by the pay of all of them (C192_paid_refuted). (Props_Referees.v)"
  },
  {
   "property": "C193",
   "status": "proved",
   "theorems": [
    "C193_shares",
    "C193_only"
   ],
   "note": "(Props_Referral.v)"
  },
  {
   "property": "C194",
   "status": "partial",
   "theorems": [
    "C194_delegator_partial",
    "C194_refuted"
   ],
   "note": "The statement is false of the code; the refutation is machine-checked. As a delegator the account is paid nothing (C194_delegator_partial), and by C21 the eras of that time are not asked for later. False for its share of what its referees earn, which goes on (C194_refuted); the validator's pay is not looked at either. (Props_Referral.v)"
  },
  {
   "property": "C195",
   "status": "proved",
   "theorems": [
    "C195_reach",
    "C195_kept",
    "C195_evm",
    "C195_exact"
   ],
   "note": "(Props_Reach.v)"
  },
  {
   "property": "C196",
   "status": "partial",
   "theorems": [
    "C196_refuted",
    "C196_dollars_partial",
    "C196_dpr_partial"
   ],
   "note": "The statement is false of the code; the refutation is machine-checked. In DPR two purchases give the record and points of one and cost the same if prices do not fall on the way, never less (C196_dpr_partial). In dollars the parts are recorded as the same stake, never give a higher level, and give the same if the first pays exactly for a level (C196_dollars_partial). False in general: what is left of the first entry above the price of a level is not counted with the second (C196_refuted). (Props_Parts.v)"
  },
  {
   "property": "C197",
   "status": "proved",
   "theorems": [
    "C197_together",
    "C197_next",
    "C197_fraction"
   ],
   "note": "(Props_Reporter2.v)"
  },
  {
   "property": "C198",
   "status": "partial",
   "theorems": [
    "C198_when",
    "C198_paid_partial",
    "C198_daily_refuted"
   ],
   "note": "The statement is false of the code; the refutation is machine-checked. (Props_Compensation.v)"
  },
  {
   "property": "C199",
   "status": "partial",
   "theorems": [
    "C199_kept",
    "C199_points",
    "C199_gone",
    "C199_points_gone_partial",
    "C199_written_partial",
    "C199_points_gone_refuted",
    "C199_written_refuted"
   ],
   "note": "The statement is false of the code; the refutation is machine-checked. (Props_History.v)"
  },
  {
   "property": "C200",
   "status": "proved",
   "theorems": [
    "C200_step",
    "C200_run"
   ],
   "note": "(Props_OtherLocks.v)"
  },
  {
   "property": "C201",
   "status": "partial",
   "theorems": [
    "C201_partial",
    "C201_genesis_partial",
    "C201_balances",
    "C201_refuted"
   ],
   "note": "The statement is false of the code; the refutation is machine-checked. Holds of every history of the staking pallet in which the account is not reaped, payments do not make its balance wrap, and balances are otherwise changed without taking what is frozen (C201_partial; from genesis C201_genesis_partial); deposits, transfers, fees, reservations and their release are such changes (C201_balances). False in the whole chain: reserved money counts towards what is frozen, and a slashed tip takes it (C201_refuted). (Props_Cover.v)"
  },
  {
   "property": "C202",
   "status": "partial",
   "theorems": [
    "C202_report",
    "C202_partial",
    "C202_refuted"
   ],
   "note": "The statement is false of the code; the refutation is machine-checked. A report takes nothing and only adds to the queue of the active era (C202_report); after cancelling what it added, balances, stakes, locks, delegations and all queues are as before (C202_partial). False as to the rest: the validator no longer stands, and a later report for the same part of the stake in that era costs nothing (C202_refuted). (Props_Cancelled.v)"
  },
  {
   "property": "C203",
   "status": "partial",
   "theorems": [
    "C203_size",
    "C203_partial",
    "C203_refuted"
   ],
   "note": "The statement is false of the code; the refutation is machine-checked. The size of an elected set is the smaller of those who stand and the number asked for (C203_size); it is at least one and at least the minimum if Root keeps the number asked for there (C203_partial). False in general: the minimum is compared with those who stand before the list is cut, and the number may be 0, wrap to 0, or be below the minimum (C203_refuted). (Props_Counts.v)"
  },
  {
   "property": "C204",
   "status": "partial",
   "theorems": [
    "C204_report",
    "C204_partial",
    "C204_refuted"
   ],
   "note": "The statement is false of the code; the refutation is machine-checked. A report changes nothing for an invulnerable validator (C204_report), and one that was invulnerable at all reports is never slashed and has no slash waiting (C204_partial). False of slashes that wait when the validator is made invulnerable: they are applied all the same (C204_refuted). (Props_Invulnerable.v)"
  },
  {
   "property": "C205",
   "status": "partial",
   "theorems": [
    "C205_kept",
    "C205_partial",
    "C205_refuted"
   ],
   "note": "The statement is false of the code; the refutation is machine-checked. Holds where it is not forgotten when validators were last elected (C205_partial); only elections set that era, and everything else keeps or forgets it (C205_kept). False in general: an entry is dropped with its last delegator, so that a sole delegator who delegates anew, to the same validator, puts it ahead of all that were elected before; others may never get a seat (C205_refuted). (Props_Turns.v)"
  }
 ]
}