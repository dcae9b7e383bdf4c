{"id": "C01", "title": "Channel money is conserved", "statement": "Over any sequence of micropayment calls, the money in all free balances, plus the balances of all open channels, plus the fees handed to the slash handler, plus the amounts dropped because a deposit below the existential deposit went to a dead account, stays equal to its initial value. No call creates money and the only loss is that named dust.", "quantifier": "all histories of calls by all accounts, at all block numbers, with any balances, locks and signature oracle", "why_tests_cant": "A test checks the sums after one scenario; conservation has to survive every interleaving of open, add, claim and close.", "anchors": ["pallets/micropayment/src/lib.rs::open_channel", "pallets/micropayment/src/lib.rs::close_channel", "pallets/micropayment/src/lib.rs::close_expired_channels", "pallets/micropayment/src/lib.rs::add_balance", "pallets/micropayment/src/lib.rs::claim_payment", "pallets/micropayment/src/lib.rs::take_from_account", "pallets/micropayment/src/lib.rs::deposit_into_account"]}
{"id": "C02", "title": "Total channel balance matches the open channels", "statement": "After any sequence of calls, the recorded total channel balance of every client equals the sum of the balances of that client's open channels (an absent record means zero).", "quantifier": "all histories and all clients", "why_tests_cant": "The total is maintained incrementally in seven places with a clamp at zero; only induction over histories shows that the clamp never hides a drift.", "anchors": ["pallets/micropayment/src/lib.rs::TotalMicropaymentChannelBalance", "pallets/micropayment/src/lib.rs::open_channel", "pallets/micropayment/src/lib.rs::close_channel", "pallets/micropayment/src/lib.rs::close_expired_channels", "pallets/micropayment/src/lib.rs::add_balance", "pallets/micropayment/src/lib.rs::claim_payment"]}
{"id": "C03", "title": "A voucher is paid at most once", "statement": "A client's signed voucher for (server, channel nonce, session) results in at most one payment over any history, including when the channel is closed and reopened, unless at least 2^32 successful calls lie between the two payments (u32 session and u64 nonce wrap-around).", "quantifier": "all histories, all pairs of payments in one history", "why_tests_cant": "Replay needs an adversarial history with closes and reopenings of unbounded length.", "anchors": ["pallets/micropayment/src/lib.rs::claim_payment", "pallets/micropayment/src/lib.rs::_close_channel", "pallets/micropayment/src/lib.rs::verify_signature", "pallets/micropayment/src/lib.rs::Nonce", "pallets/micropayment/src/lib.rs::SessionId"]}
{"id": "C04", "title": "Payments need the client's signature over exactly that payment", "statement": "Whenever a call takes money out of an open, unexpired channel in favour of the server, the caller is the server, and the supplied signature verifies under the client's key for exactly (server, the channel's nonce, session, amount).", "quantifier": "all states, callers and arguments", "why_tests_cant": "Negative authorisation statement over all calls and all arguments.", "anchors": ["pallets/micropayment/src/lib.rs::claim_payment", "pallets/micropayment/src/lib.rs::verify_signature"]}
{"id": "C05", "title": "Claims in one channel use consecutive sessions", "statement": "Between opening and closing of a channel, the sessions of successive paid claims are s, s+1, s+2, ... (modulo 2^32), where s is the session of the first claim.", "quantifier": "all histories", "why_tests_cant": "Ordering over unbounded histories with interleaved calls.", "anchors": ["pallets/micropayment/src/lib.rs::claim_payment", "pallets/micropayment/src/lib.rs::SessionId"]}
{"id": "C06", "title": "Who can close a channel and when", "statement": "An open channel disappears only by a call of its server, by a call of its client when the channel has expired (or, for a direct close, the server has been offline at least one era), or by a claim of the server after expiry. Nobody else's call changes the channel, and in particular before expiry and with the server online the client cannot take money back.", "quantifier": "all states, callers and arguments", "why_tests_cant": "Frame property: says what every other call must not do.", "anchors": ["pallets/micropayment/src/lib.rs::close_channel", "pallets/micropayment/src/lib.rs::close_expired_channels", "pallets/micropayment/src/lib.rs::claim_payment"]}
{"id": "C07", "title": "Claims are covered by what the client locked", "statement": "For every channel, the amounts paid out by claims plus the current balance equal what the client put in by opening and adding since that opening. So the server can never be paid more than was locked.", "quantifier": "all histories", "why_tests_cant": "Needs a ghost account over unbounded histories.", "anchors": ["pallets/micropayment/src/lib.rs::open_channel", "pallets/micropayment/src/lib.rs::add_balance", "pallets/micropayment/src/lib.rs::claim_payment"]}
{"id": "C08", "title": "A claim above the balance pays the rest and closes", "statement": "When a server presents a valid voucher whose amount exceeds the channel balance, the server receives the remaining balance and the channel is closed (this is what the code's comments announce).", "quantifier": "all channels and vouchers with amount above balance", "why_tests_cant": "The branch does the payment and then returns an error, which rolls it back; a unit test without the dispatch layer sees the payment.", "anchors": ["pallets/micropayment/src/lib.rs::claim_payment"]}
{"id": "C09", "title": "Closing refunds the client", "statement": "A successful close gives the client the channel balance minus the burn fee (10 percent in the runtime, rounded to nearest), sends exactly that fee to the slash handler, removes the channel and its session record, and increments the pair's nonce. Nobody else's money or channels change.", "quantifier": "all states", "why_tests_cant": "Exact effect and frame over all amounts, including rounding.", "anchors": ["pallets/micropayment/src/lib.rs::close_channel", "pallets/micropayment/src/lib.rs::deposit_into_account", "pallets/micropayment/src/lib.rs::_close_channel"]}
{"id": "C10", "title": "Voucher bytes are unambiguous", "statement": "The byte string that is hashed and signed determines (server, nonce, session, amount): two different vouchers never have the same bytes.", "quantifier": "all pairs of vouchers with 32 byte accounts, u64 nonce, u32 session, u128 amount", "why_tests_cant": "Injectivity over all inputs.", "anchors": ["pallets/micropayment/src/lib.rs::construct_byte_array_and_hash"]}
{"id": "C11", "title": "Server lists agree with the registered servers", "statement": "After any history, an account appears in the server list of a region exactly if it is a registered server device whose country is that region or whose level-2 or level-1 region is that region (per country list, region list).", "quantifier": "all histories, accounts and regions", "why_tests_cant": "Three lists are updated in step across register, country change, unregister and rollbacks.", "anchors": ["pallets/deeper-node/src/lib.rs::try_add_server", "pallets/deeper-node/src/lib.rs::try_remove_server", "pallets/deeper-node/src/lib.rs::register_device_deprecated", "pallets/deeper-node/src/lib.rs::unregister_device", "pallets/deeper-node/src/lib.rs::register_server", "pallets/deeper-node/src/lib.rs::unregister_server"]}
{"id": "C12", "title": "Server lists are sorted and free of duplicates", "statement": "After any history every server list is strictly sorted by account, so binary search finds exactly the members.", "quantifier": "all histories and regions", "why_tests_cant": "Binary-search insertion is only right while sortedness holds in every reachable state.", "anchors": ["pallets/deeper-node/src/lib.rs::country_list_insert", "pallets/deeper-node/src/lib.rs::country_list_remove", "pallets/deeper-node/src/lib.rs::region_list_insert", "pallets/deeper-node/src/lib.rs::region_list_remove"]}
{"id": "C13", "title": "Device registration deposit", "statement": "Exactly one deposit of the minimum lock amount is reserved per registered device: over any history the amount this pallet holds reserved for an account is that amount if the account has a registered device and zero otherwise.", "quantifier": "all histories and accounts", "why_tests_cant": "Re-registration and unregistration in any order.", "anchors": ["pallets/deeper-node/src/lib.rs::register_device_deprecated", "pallets/deeper-node/src/lib.rs::unregister_device"]}
{"id": "C14", "title": "Onboard record is permanent and unique", "statement": "The onboard time of an account is the block of its first heartbeat and never changes; the onboarded list contains each account that ever sent a heartbeat exactly once.", "quantifier": "all histories", "why_tests_cant": "History property of unbounded length.", "anchors": ["pallets/deeper-node/src/lib.rs::im_online", "pallets/deeper-node/src/lib.rs::OnboardTime", "pallets/deeper-node/src/lib.rs::DevicesOnboard"]}
{"id": "C15", "title": "EVM address binding is exclusive", "statement": "An EVM address bound to an account is never bound to another account later, and the account's current EVM address maps back to the account.", "quantifier": "all histories", "why_tests_cant": "Two maps must stay inverse under any order of calls.", "anchors": ["pallets/deeper-node/src/lib.rs::reward_mapping", "pallets/deeper-node/src/lib.rs::RewardsAccountsDeepertoEVM", "pallets/deeper-node/src/lib.rs::RewardsAccountsEVMtoDeeper"]}
{"id": "C16", "title": "Unbinding an EVM address frees it", "statement": "When an account moves to a new EVM address the maps stay a bijection: the old EVM address no longer resolves to the account.", "quantifier": "all histories", "why_tests_cant": "Bijectivity over all reachable states.", "anchors": ["pallets/deeper-node/src/lib.rs::reward_mapping"]}
{"id": "C17", "title": "A heartbeat resets the offline counter", "statement": "Right after a heartbeat the number of offline eras is zero; it never decreases without a heartbeat, and it equals the whole number of eras since the last heartbeat (or since genesis).", "quantifier": "all histories and later blocks", "why_tests_cant": "Quantifies over all later block numbers.", "anchors": ["pallets/deeper-node/src/lib.rs::im_online", "pallets/deeper-node/src/lib.rs::get_eras_offline"]}
{"id": "C18", "title": "Credit level always matches the score", "statement": "After any history, the stored level of every user is the level of the stored score (100-point bands, level eight from 800).", "quantifier": "all histories and users", "why_tests_cant": "Ten different entry points rewrite score and level.", "anchors": ["pallets/credit/src/lib.rs::_update_credit", "pallets/credit/src/lib.rs::add_or_update_credit", "pallets/credit/src/lib.rs::slash_credit", "pallets/credit/src/lib.rs::update_credit_by_traffic", "pallets/credit/src/lib.rs::burn_for_add_credit", "pallets/credit/src/lib.rs::burn_nft", "pallets/credit/src/lib.rs::do_add_credit", "pallets/credit/src/lib.rs::add_or_update_credit_data", "primitives/src/credit.rs::CreditLevel", "primitives/src/credit.rs::CreditData"]}
{"id": "C19", "title": "Credit history is ordered by era", "statement": "If all eras recorded by administrators lie in the past, the credit history of every delegator is strictly increasing in era and its last entry is the current credit data.", "quantifier": "all histories", "why_tests_cant": "Order is an induction over all pushes.", "anchors": ["pallets/credit/src/lib.rs::update_credit_history", "pallets/credit/src/lib.rs::init_delegator_history", "pallets/credit/src/lib.rs::force_modify_credit_history"]}
{"id": "C20", "title": "Rewards use the credit that was in force", "statement": "For every era range, the reward map built from the history assigns to each era the last recorded credit at or before that era; each era of the range that is on or after the first record is counted exactly once.", "quantifier": "all histories and all era ranges", "why_tests_cant": "Refinement of a loop with an index to a declarative lookup, for every list and range.", "anchors": ["pallets/credit/src/lib.rs::get_credit_map"]}
{"id": "C21", "title": "A reward period is paid once", "statement": "The eras rewarded by successive reward computations for a delegator are disjoint.", "quantifier": "all histories of reward calls", "why_tests_cant": "Needs the staking cursor and the reward computation together.", "anchors": ["pallets/credit/src/lib.rs::get_reward", "pallets/staking/src/lib.rs::pay_delegator"]}
{"id": "C22", "title": "Slashing credit never underflows and never helps", "statement": "A credit slash lowers the score by the penalty, or to zero, and leaves other users alone; it never raises a score.", "quantifier": "all states, users and penalties", "why_tests_cant": "All amounts including the saturating boundary and the delete marker.", "anchors": ["pallets/credit/src/lib.rs::slash_credit", "pallets/credit/src/lib.rs::evm_update_credit"]}
{"id": "C23", "title": "Slashing a user without credit is harmless", "statement": "Slashing the credit of a user who has none does not stop the chain (no panic).", "quantifier": "all users and penalties", "why_tests_cant": "Absence of a panic in all states.", "anchors": ["pallets/credit/src/lib.rs::slash_credit", "pallets/credit/src/lib.rs::update_credit_history", "pallets/credit/src/lib.rs::evm_update_credit"]}
{"id": "C24", "title": "An offline slash is not undone", "statement": "When a reward computation slashes the credit of an offline user, the score stored after the call is lower than before.", "quantifier": "all states in which the slash condition holds", "why_tests_cant": "Depends on the joint effect of slash and campaign switch in the same call.", "anchors": ["pallets/credit/src/lib.rs::get_reward", "pallets/credit/src/lib.rs::slash_offline_device_credit", "pallets/credit/src/lib.rs::do_switch_campaign"]}
{"id": "C25", "title": "Price averages stay between the submitted prices", "statement": "The price stored at the end of a block lies between the smallest and the largest price submitted in that block, and every accepted submission differs from the current price by at most the configured rate.", "quantifier": "all blocks and submissions", "why_tests_cant": "Arithmetic over all lists of prices.", "anchors": ["pallets/credit/src/lib.rs::set_dpr_price", "pallets/credit/src/lib.rs::set_price"]}
{"id": "C26", "title": "Burning for credit charges exactly the price", "statement": "Burning for credit raises the score by exactly the bought points, never above the user's cap, and withdraws exactly points times unit price from the caller to the treasury.", "quantifier": "all states, callers and amounts", "why_tests_cant": "A cast to u32 sits in the cost computation; only a proof over all amounts shows when it is exact.", "anchors": ["pallets/credit/src/lib.rs::burn_for_add_credit"]}
{"id": "C27", "title": "Credit from burned NFTs is capped per address", "statement": "Over any history the credit an address obtained by burning NFTs never exceeds the per-address cap.", "quantifier": "all histories", "why_tests_cant": "Accumulates over any number of burns.", "anchors": ["pallets/credit/src/lib.rs::burn_nft", "pallets/credit/src/lib.rs::update_credit_by_burn_nft", "pallets/credit/src/lib.rs::CreditFromBurnNft"]}
{"id": "C28", "title": "At most one traffic credit per interval", "statement": "Two traffic updates of the same user that both raise the score are at least the minimum interval apart, each adds exactly one point, and the first comes at least one era after the device came on board.", "quantifier": "all histories", "why_tests_cant": "Timing over arbitrary histories.", "anchors": ["pallets/credit/src/lib.rs::update_credit_by_traffic", "pallets/credit/src/lib.rs::check_update_credit_interval"]}
{"id": "C29", "title": "Bonus never lowers the reward", "statement": "For consistent settings the daily reward with bonus is at least the base daily reward and the settings update never underflows.", "quantifier": "all settings", "why_tests_cant": "Fixed-point rounding over all percentages and balances.", "anchors": ["pallets/credit/src/lib.rs::_update_credit_setting", "pallets/credit/src/lib.rs::calc_normal_daily_poc_reward", "pallets/credit/src/lib.rs::calc_usdt_daily_poc_reward"]}
{"id": "C30", "title": "A traffic proof is used once", "statement": "Each accepted traffic claim of an account carries that account's next nonce, nonces are 0,1,2,..., and the same signed claim is never accepted twice.", "quantifier": "all histories", "why_tests_cant": "Replay needs arbitrary histories.", "anchors": ["pallets/credit-accumulation/src/lib.rs::add_credit_by_traffic", "pallets/credit-accumulation/src/lib.rs::AtmosNonce"]}
{"id": "C31", "title": "Traffic proofs need the operator key", "statement": "A traffic claim is accepted only with a signature by the configured operator key or the configured temporary key over exactly the caller's account and the nonce.", "quantifier": "all states and arguments", "why_tests_cant": "Universal negative statement.", "anchors": ["pallets/credit-accumulation/src/lib.rs::verify_atomos_signature", "pallets/credit-accumulation/src/lib.rs::do_verify"]}
{"id": "C32", "title": "Privileges are a set", "statement": "Granting, revoking and clearing change exactly the named privilege (or all of them) of exactly the named account: afterwards has_privilege answers as set insertion, set removal and the empty set would, for all accounts and privileges.", "quantifier": "all histories of grants and revocations, all accounts and privileges", "why_tests_cant": "Bit masks over a shared u64; interference of any two flags must be excluded.", "anchors": ["pallets/user-privileges/src/lib.rs::set_user_privilege", "pallets/user-privileges/src/lib.rs::unset_user_privilege", "pallets/user-privileges/src/lib.rs::clear_user_privilege", "pallets/user-privileges/src/lib.rs::has_privilege", "primitives/src/user_privileges.rs::Privilege", "primitives/src/user_privileges.rs::Privileges"]}
{"id": "C33", "title": "Only the force origin grants privileges", "statement": "Any account-privilege change is caused by a call with the force origin, and any EVM-privilege change by a caller holding the EVM setter privilege.", "quantifier": "all calls and origins", "why_tests_cant": "Universal negative statement.", "anchors": ["pallets/user-privileges/src/lib.rs::set_user_privilege", "pallets/user-privileges/src/lib.rs::set_evm_privilege"]}
{"id": "C34", "title": "Privilege codec round-trips and rejects junk", "statement": "Encoding then decoding any set of privileges gives it back, and a stored word with an unknown bit is rejected.", "quantifier": "all u64 words", "why_tests_cant": "2^64 inputs.", "anchors": ["primitives/src/user_privileges.rs::Privileges", "primitives/src/user_privileges.rs::Encode", "primitives/src/user_privileges.rs::Decode"]}
{"id": "C35", "title": "Migration keeps every old privilege", "statement": "After the runtime upgrade every account that held a role in the old storage holds the corresponding privilege.", "quantifier": "all old storages", "why_tests_cant": "Depends on overlaps between the old role sets.", "anchors": ["pallets/user-privileges/src/lib.rs::on_runtime_upgrade"]}
{"id": "C36", "title": "Credit precompile decodes strictly and respects call context", "statement": "The credit precompile changes state only for the add and slash selectors, with at least 68 input bytes, in a non-static call without value, from an authorised EVM address; every other input leaves all credit unchanged.", "quantifier": "all byte strings and call contexts", "why_tests_cant": "All inputs of all lengths.", "anchors": ["pallets/precompile-credit/src/lib.rs::execute", "pallets/precompile-credit/src/lib.rs::do_update_credit", "pallets/precompile-credit/src/lib.rs::get_credit_score", "pallets/credit/src/lib.rs::evm_update_credit"]}
{"id": "C37", "title": "Credit precompile reports failure", "statement": "When the precompile reports success for an update, the credit was updated.", "quantifier": "all calls", "why_tests_cant": "Universal statement about the returned exit code.", "anchors": ["pallets/precompile-credit/src/lib.rs::do_update_credit"]}
{"id": "C38", "title": "Credit precompile is advertised", "statement": "Every address that the precompile set executes is reported as a precompile.", "quantifier": "all addresses", "why_tests_cant": "All 2^160 addresses.", "anchors": ["runtime/src/precompiles.rs::execute", "runtime/src/precompiles.rs::is_precompile", "runtime/src/precompiles.rs::used_addresses"]}
{"id": "C39", "title": "Each ADSC staker is paid at most once a day", "statement": "Within one day no staking account is paid twice, whatever accounts join during the day and however the work is spread over blocks.", "quantifier": "all days, block schedules, sets of stakers and online patterns", "why_tests_cant": "Cursor iteration over changing storage.", "anchors": ["pallets/adsc/src/lib.rs::on_initialize", "pallets/adsc/src/lib.rs::adsc_reward"]}
{"id": "C40", "title": "An ADSC staker is paid for at most its period", "statement": "An account is paid on at most as many days as its staking period, each payment is at most the base reward, and after the period it is removed with its NFT.", "quantifier": "all histories", "why_tests_cant": "Unbounded number of days.", "anchors": ["pallets/adsc/src/lib.rs::adsc_reward", "pallets/adsc/src/lib.rs::pay_reward"]}
{"id": "C41", "title": "ADSC halving", "statement": "The base reward halves when the minted total reaches the target and the target moves up by one step; so the base reward is the initial reward divided by two to the number of halvings, and never grows by itself.", "quantifier": "all histories of payments", "why_tests_cant": "Unbounded.", "anchors": ["pallets/adsc/src/lib.rs::pay_reward"]}
{"id": "C42", "title": "ADSC swap is exact and atomic", "statement": "A successful swap burns exactly the given ADSC from the caller and pays floor(amount * dpr_rate / adsc_rate) DPR from the pool; a failing swap changes nothing; it never panics.", "quantifier": "all states, amounts and rates", "why_tests_cant": "Division, overflow and zero rate over all values.", "anchors": ["pallets/adsc/src/lib.rs::swap_adsc_to_dpr", "pallets/adsc/src/lib.rs::set_exchange_rate"]}
{"id": "C43", "title": "NFT stakes are exclusive", "statement": "One NFT is staked by at most one account and one account stakes at most one NFT at any time.", "quantifier": "all histories", "why_tests_cant": "Two maps kept in step.", "anchors": ["pallets/adsc/src/lib.rs::add_adsc_staking_account_with_nft", "pallets/adsc/src/lib.rs::add_nft", "pallets/adsc/src/lib.rs::remove_nft"]}
{"id": "C44", "title": "A staking release never exceeds the promised total", "statement": "The total released for one schedule never exceeds its total balance.", "quantifier": "all schedules, block times and histories", "why_tests_cant": "Depends on when the release loop visits the account.", "anchors": ["pallets/operation/src/lib.rs::unstaking_release", "pallets/operation/src/lib.rs::release_staking_balance"]}
{"id": "C45", "title": "Release limits hold", "statement": "No single release exceeds the single maximum and the releases of one day exceed the daily maximum by less than one single maximum.", "quantifier": "all histories within a day", "why_tests_cant": "Cumulative bound over many blocks.", "anchors": ["pallets/operation/src/lib.rs::release_staking_balance", "pallets/operation/src/lib.rs::is_single_max_limit"]}
{"id": "C46", "title": "A release is paid at most once per day and account", "statement": "For each account and day the days released so far never exceed the days elapsed since its start: releases cover disjoint sets of days.", "quantifier": "all histories", "why_tests_cant": "Cursor iteration over blocks.", "anchors": ["pallets/operation/src/lib.rs::release_staking_balance"]}
{"id": "C47", "title": "Bridge accounting", "statement": "Bridge deposits and withdrawals move exactly the amount between the user and the fund pool and keep the pool's counters equal to the sums of the moved amounts.", "quantifier": "all histories", "why_tests_cant": "Sums over unbounded histories.", "anchors": ["pallets/operation/src/lib.rs::bridge_deeper_to_other", "pallets/operation/src/lib.rs::bridge_other_to_deeper"]}
{"id": "C48", "title": "Bonded stash and controller stay paired", "statement": "After any history a stash is bonded to a controller exactly if the controller's ledger belongs to that stash; so two stashes never share a controller.", "quantifier": "all histories of bond, set_controller, unbond, withdraw, slash, reap", "why_tests_cant": "Two maps kept inverse.", "anchors": ["pallets/staking/src/lib.rs::bond", "pallets/staking/src/lib.rs::set_controller", "pallets/staking/src/lib.rs::kill_stash", "pallets/staking/src/lib.rs::withdraw_unbonded", "pallets/staking/src/lib.rs::reap_stash", "pallets/staking/src/lib.rs::force_unstake"]}
{"id": "C49", "title": "The ledger total is active plus unlocking", "statement": "After any history every ledger's total equals its active part plus the sum of its unlocking chunks, and the staking lock on the stash equals that total.", "quantifier": "all histories", "why_tests_cant": "Bond, unbond, rebond, withdraw, slash, burn, reward in any order.", "anchors": ["pallets/staking/src/lib.rs::StakingLedger", "pallets/staking/src/lib.rs::bond_extra", "pallets/staking/src/lib.rs::unbond", "pallets/staking/src/lib.rs::rebond", "pallets/staking/src/lib.rs::withdraw_unbonded", "pallets/staking/src/lib.rs::validator_burn", "pallets/staking/src/lib.rs::make_validator_payout", "pallets/staking/src/lib.rs::update_ledger", "pallets/staking/src/slashing.rs::do_slash"]}
{"id": "C50", "title": "Unbonded money waits for the bonding duration", "statement": "Money unbonded in an era leaves the staking lock only by slashing or by a withdrawal at least the bonding duration later; a withdrawal never touches the active part, except that a whole ledger at or below the minimum balance with nothing unlocking is dissolved.", "quantifier": "all histories", "why_tests_cant": "Quantifies over all later operations.", "anchors": ["pallets/staking/src/lib.rs::unbond", "pallets/staking/src/lib.rs::consolidate_unlocked", "pallets/staking/src/lib.rs::withdraw_unbonded"]}
{"id": "C51", "title": "Slashing takes what it says", "statement": "A ledger slash removes at least the smaller of the slash value and the total, never more than the total, leaves no dust at or below the minimum in a slashed part, takes from the active part first, and returns exactly the drop of the total.", "quantifier": "all ledgers and values", "why_tests_cant": "All chunk lists.", "anchors": ["pallets/staking/src/lib.rs::StakingLedger::slash"]}
{"id": "C52", "title": "Rebonding moves exactly the requested amount", "statement": "Rebonding moves min(value, sum of unlocking) from the most recent chunks to the active part and keeps the total.", "quantifier": "all ledgers and values", "why_tests_cant": "Loop over all chunk lists.", "anchors": ["pallets/staking/src/lib.rs::StakingLedger::rebond"]}
{"id": "C53", "title": "Election picks the longest waiting validators", "statement": "The elected validators are whitelisted (or the whitelist is empty) declared validators, at most the configured number, without repetition, and every validator left out was elected no earlier than each one elected, ties broken by more delegators.", "quantifier": "all validator sets and counts", "why_tests_cant": "Sorting and truncation of arbitrary lists.", "anchors": ["pallets/staking/src/lib.rs::elect", "pallets/staking/src/lib.rs::compare", "pallets/staking/src/lib.rs::trusted_validator"]}
{"id": "C54", "title": "Delegations are mirrored", "statement": "After any history a delegator is in a validator's delegator set exactly if the delegator is delegating and named that validator.", "quantifier": "all histories of delegate, undelegate, slashes, payouts and elections", "why_tests_cant": "Two-way map consistency.", "anchors": ["pallets/staking/src/lib.rs::do_delegate", "pallets/staking/src/lib.rs::_undelegate", "pallets/staking/src/lib.rs::pay_delegator", "pallets/staking/src/lib.rs::elect"]}
{"id": "C55", "title": "Delegator counters are right", "statement": "The delegator count is the number of delegator records and the active count the number of records that are delegating.", "quantifier": "all histories", "why_tests_cant": "Saturating counters could hide errors.", "anchors": ["pallets/staking/src/lib.rs::DelegatorCount", "pallets/staking/src/lib.rs::ActiveDelegatorCount", "pallets/staking/src/lib.rs::do_delegate", "pallets/staking/src/lib.rs::_undelegate", "pallets/staking/src/lib.rs::pay_delegator"]}
{"id": "C56", "title": "The mining pool is never overdrawn", "statement": "Over any history, what is minted to validators, delegators, referrers, compensation and npow is covered by the pool: minted plus remaining is never more than the initial pool plus increases.", "quantifier": "all histories", "why_tests_cant": "Rounding to nearest in shares may add up to more than the whole.", "anchors": ["pallets/staking/src/lib.rs::pay_validators", "pallets/staking/src/lib.rs::pay_delegators", "pallets/staking/src/lib.rs::pay_delegator", "pallets/staking/src/lib.rs::pay_referer", "pallets/staking/src/lib.rs::difference_compensation", "pallets/staking/src/lib.rs::npow_mint", "pallets/staking/src/lib.rs::increase_mining_reward"]}
{"id": "C57", "title": "Each delegator is paid once per era", "statement": "In one era a delegator is paid at most once, and every delegator present for the whole era is reached when enough blocks pass.", "quantifier": "all histories in an era", "why_tests_cant": "Key cursor over changing storage.", "anchors": ["pallets/staking/src/lib.rs::on_initialize", "pallets/staking/src/lib.rs::pay_delegators", "pallets/staking/src/lib.rs::pay_delegator"]}
{"id": "C58", "title": "Referral counts are exact", "statement": "The referee count of an account is the number of accounts whose referer it is, and nobody refers themselves.", "quantifier": "all histories", "why_tests_cant": "Counter against a map.", "anchors": ["pallets/staking/src/lib.rs::set_user_referer", "pallets/staking/src/lib.rs::unset_user_referer"]}
{"id": "C59", "title": "Cancelling deferred slashes removes exactly those named", "statement": "Cancelling with a sorted duplicate-free list of indices removes exactly the slashes at those indices and keeps the others in order.", "quantifier": "all slash lists and index lists", "why_tests_cant": "In-place removal with shifting indices.", "anchors": ["pallets/staking/src/lib.rs::cancel_deferred_slash", "pallets/staking/src/lib.rs::is_sorted_and_unique"]}
{"id": "C60", "title": "Repeated offences in a span cost the maximum, not the sum", "statement": "Within one slashing span the amount slashed over all reports equals the largest single slash of the span.", "quantifier": "all sequences of offence reports", "why_tests_cant": "Sequence property.", "anchors": ["pallets/staking/src/slashing.rs::compare_and_update_span_slash", "pallets/staking/src/slashing.rs::compute_slash"]}
{"id": "C61", "title": "Slashing spans partition the eras", "statement": "The spans of a stash are consecutive, non-overlapping, numbered downwards, and every era from the earliest start on is in exactly one span.", "quantifier": "all sequences of end_span and prune", "why_tests_cant": "Encoded as offsets; needs induction.", "anchors": ["pallets/staking/src/slashing.rs::SlashingSpans", "pallets/staking/src/slashing.rs::end_span", "pallets/staking/src/slashing.rs::iter", "pallets/staking/src/slashing.rs::prune"]}
{"id": "C62", "title": "Tip payout is the median of the active tippers", "statement": "Closing a tip pays exactly the median of the values declared by current tippers (finder's share included) from the tip account, once.", "quantifier": "all tips and member sets", "why_tests_cant": "Sorting and membership filtering of arbitrary lists.", "anchors": ["pallets/tips/src/lib.rs::payout_tip", "pallets/tips/src/lib.rs::retain_active_tips", "pallets/tips/src/lib.rs::close_tip"]}
{"id": "C63", "title": "A tip needs a majority of tippers", "statement": "A tip is paid out in balance only after at least half of the tippers declared a balance value, and the countdown has passed.", "quantifier": "all histories", "why_tests_cant": "Two voting channels share one closing time.", "anchors": ["pallets/tips/src/lib.rs::tip", "pallets/tips/src/lib.rs::credit_tip", "pallets/tips/src/lib.rs::close_tip", "pallets/tips/src/lib.rs::close_credit_tip"]}
{"id": "C64", "title": "Closing a ripe tip does not panic", "statement": "Closing any tip whose closing time has passed succeeds without a panic.", "quantifier": "all reachable tips", "why_tests_cant": "Index into a filtered list.", "anchors": ["pallets/tips/src/lib.rs::payout_tip", "pallets/tips/src/lib.rs::payout_credit_tip"]}
{"id": "C65", "title": "Tip reasons and deposits stay consistent", "statement": "Every open tip has its reason stored, two open tips never share a reason, and the deposits held equal the sum of the deposits of open tips; retracting, closing and slashing release exactly that deposit.", "quantifier": "all histories", "why_tests_cant": "Maps kept in step.", "anchors": ["pallets/tips/src/lib.rs::report_awesome", "pallets/tips/src/lib.rs::retract_tip", "pallets/tips/src/lib.rs::tip_new", "pallets/tips/src/lib.rs::credit_tip_new", "pallets/tips/src/lib.rs::close_tip", "pallets/tips/src/lib.rs::slash_tip"]}
{"id": "C66", "title": "Credit tips are capped", "statement": "A credit tip adds at most the maximum credit reward to the beneficiary.", "quantifier": "all tips", "why_tests_cant": "Upper bound for all inputs.", "anchors": ["pallets/tips/src/lib.rs::payout_credit_tip"]}
{"id": "C67", "title": "Closing returns the whole remaining balance", "statement": "When a channel is closed, the client gets back the whole balance left in it (the code's comment: return the remaining balance in the channel to the client).", "quantifier": "all closes", "why_tests_cant": "A universal statement about every close; the fee is charged inside a shared helper.", "anchors": ["pallets/micropayment/src/lib.rs::close_channel", "pallets/micropayment/src/lib.rs::deposit_into_account"]}
{"id": "C68", "title": "A channel can always be closed", "statement": "The server of an open channel can always close it, and the client can after expiry.", "quantifier": "all reachable states", "why_tests_cant": "Depends on balances outside the pallet at the time of the close.", "anchors": ["pallets/micropayment/src/lib.rs::close_channel", "pallets/micropayment/src/lib.rs::deposit_into_account"]}
{"id": "C69", "title": "Opening and topping up lock exactly the amount", "statement": "Opening a channel (or adding to it) moves exactly the amount from the client's free balance into the channel, keeps the client's account alive and above its locks, sets the expiration to the current block plus the duration in blocks, gives the channel the pair's current nonce, and changes nothing else; it succeeds whenever the client can spare the amount and no such channel exists (exists).", "quantifier": "all states, amounts, durations", "why_tests_cant": "Exact effect and frame for all values.", "anchors": ["pallets/micropayment/src/lib.rs::open_channel", "pallets/micropayment/src/lib.rs::add_balance", "pallets/micropayment/src/lib.rs::take_from_account"]}
{"id": "C70", "title": "Credit proof content is authenticated", "statement": "A device credit proof is recorded only with the content the operator signed: a signature accepted for one timestamp, traffic and uptime is not accepted for another (report).", "quantifier": "all states, accounts, signatures and contents", "why_tests_cant": "Quantifies over every possible content for one signature.", "anchors": ["pallets/deeper-node/src/lib.rs::report_credit_proof"]}
{"id": "C71", "title": "Burn totals agree", "statement": "The total of burned DPR is the sum of the totals of all eras, and it never decreases.", "quantifier": "all histories", "why_tests_cant": "An invariant over any sequence of burns in any eras, including saturation.", "anchors": ["pallets/credit/src/lib.rs::burn_record", "pallets/credit/src/lib.rs::burn_for_add_credit"]}
{"id": "C72", "title": "Unprivileged callers only touch their own credit", "statement": "A call signed by an account without privileges changes no other user's credit record or history, never lowers the caller's own score, and changes no setting, price or reward table.", "quantifier": "all states, callers and calls of the credit pallet", "why_tests_cant": "A frame property over all calls and all users.", "anchors": ["pallets/credit/src/lib.rs::burn_for_add_credit", "pallets/credit/src/lib.rs::burn_nft", "pallets/credit/src/lib.rs::is_admin", "pallets/credit/src/lib.rs::set_dpr_price"]}
{"id": "C73", "title": "Genesis campaign schedule", "statement": "The yearly rate of the genesis campaign exceeds that of campaign 8 by ten points at the start and by one point less after every 180 eras, five times, and by five points from then on, whichever code sets it.", "quantifier": "all blocks", "why_tests_cant": "Spans years of blocks and two code paths (hook and upgrade).", "anchors": ["pallets/credit/src/lib.rs::on_initialize", "pallets/credit/src/lib.rs::on_runtime_upgrade", "pallets/credit/src/credit_setting.rs::sub_genesis_apy", "pallets/credit/src/credit_setting.rs::half_campaign7_settings"]}
{"id": "C74", "title": "Unstaking takes back exactly the staked points", "statement": "Unstaking lowers the score by exactly the points gained by staking since the last unstaking (to zero if there are fewer), and cannot be repeated.", "quantifier": "all histories", "why_tests_cant": "Depends on the whole history of staking and unstaking of the account.", "anchors": ["pallets/credit/src/lib.rs::add_or_update_credit", "pallets/credit/src/lib.rs::do_unstaking_slash_credit"]}
{"id": "C75", "title": "A privilege on credit is used only by its holder", "statement": "Credit changes through the precompile only when the contract (or account) making the call is itself authorised; an unauthorised contract called by an authorised address cannot use that address's privilege.", "quantifier": "all call frames, call kinds, inputs", "why_tests_cant": "Needs all ways one contract can reach another.", "anchors": ["pallets/precompile-credit/src/lib.rs::do_update_credit", "runtime/src/precompiles.rs::execute"]}
{"id": "C76", "title": "Credit precompile honours the whole amount", "statement": "An update through the precompile changes the score by the 256-bit amount given (stopping at zero and at the largest score), or fails.", "quantifier": "all amounts up to 2^256", "why_tests_cant": "Nearly all of the amounts lie outside what a test tries.", "anchors": ["pallets/precompile-credit/src/lib.rs::do_update_credit", "pallets/credit/src/lib.rs::evm_update_credit"]}
{"id": "C77", "title": "No ADSC staker is forgotten", "statement": "On a day with at least 17000 blocks after its first one, every staker online all day is visited exactly once: it is paid and has one day less left, or leaves if it had none; however many stakers there are and although up to 17000 accounts join during the day.", "quantifier": "all sets of stakers, block schedules, joining and offline patterns", "why_tests_cant": "The share per block is fixed at the start of the day while the set of stakers changes; needs thousands of blocks.", "anchors": ["pallets/adsc/src/lib.rs::on_initialize", "pallets/adsc/src/lib.rs::adsc_reward"]}
{"id": "C78", "title": "ADSC rewards have a ceiling", "statement": "Without retuning by an admin, all ADSC rewards ever paid add up to at most 73 halving steps (73 * 10^10 ADSC).", "quantifier": "all histories", "why_tests_cant": "Reached only after decades of blocks.", "anchors": ["pallets/adsc/src/lib.rs::pay_reward"]}
{"id": "C79", "title": "ADSC held never exceeds ADSC issued", "statement": "ADSC held by accounts plus ADSC bridged out is at most rewards paid plus ADSC bridged in; a bridge transfer moves exactly the amount for one account or changes nothing.", "quantifier": "all histories of rewards, bridge transfers, swaps and transfers", "why_tests_cant": "A conservation law over all histories.", "anchors": ["pallets/adsc/src/lib.rs::pay_reward", "pallets/adsc/src/lib.rs::do_bridge_burn_adsc", "pallets/adsc/src/lib.rs::do_bridge_mint_adsc", "pallets/adsc/src/lib.rs::swap_adsc_to_dpr"]}
{"id": "C80", "title": "Only admins run the ADSC pallet", "statement": "A caller without the CreditAdmin privilege changes nothing except by swapping its own ADSC; only root adds to the pool.", "quantifier": "all states, callers and calls", "why_tests_cant": "Quantifies over every call and state.", "anchors": ["pallets/adsc/src/lib.rs::add_adsc_staking_account", "pallets/adsc/src/lib.rs::add_pool_dpr_adsc"]}
{"id": "C81", "title": "Powers over releases, limits, locks and the bridge", "statement": "A call changes the release limits only for root, schedules only for a release setter, the bridge pool and counters only for a bridge admin, and takes free money of an account other than the caller's only for root, a locker or a bridge admin; an account without privileges can only burn its own money or announce a bridge transfer.", "quantifier": "all states, callers and calls", "why_tests_cant": "Quantifies over every call and state.", "anchors": ["pallets/operation/src/lib.rs::set_release_limit_parameter", "pallets/operation/src/lib.rs::unstaking_release", "pallets/operation/src/lib.rs::bridge_deeper_to_other", "pallets/operation/src/lib.rs::force_reserve_by_member"]}
{"id": "C82", "title": "The operation pallet creates exactly what it announces", "statement": "Over any history the money in the chain grows by exactly the sum of the ReleaseReward events; the grand total of releases equals the sum of the daily totals modulo 2^128.", "quantifier": "all histories of calls and blocks", "why_tests_cant": "A conservation law over all histories.", "anchors": ["pallets/operation/src/lib.rs::release_staking_balance", "pallets/operation/src/lib.rs::burn_for_ezc", "pallets/operation/src/lib.rs::bridge_deeper_to_other"]}
{"id": "C83", "title": "Burning for EZC is exact", "statement": "burn_for_ezc takes at least the minimum, moves exactly the amount from the caller to the treasury, keeps the caller's existential deposit and touches nobody else.", "quantifier": "all states and amounts", "why_tests_cant": "Quantifies over all balances.", "anchors": ["pallets/operation/src/lib.rs::burn_for_ezc"]}
{"id": "C84", "title": "Every due schedule is served", "statement": "On a day with more blocks than schedules, every account whose due amount is positive and at most the single maximum is paid, unless the daily maximum is reached.", "quantifier": "all states, schedules and blocks of a day", "why_tests_cant": "Liveness of a cursor over many blocks.", "anchors": ["pallets/operation/src/lib.rs::release_staking_balance"]}
{"id": "C85", "title": "An accepted schedule is eventually paid", "statement": "A schedule accepted by unstaking_release keeps being paid as long as blocks are made, also after days without blocks.", "quantifier": "all schedules and histories", "why_tests_cant": "The failure needs a day without blocks; the accumulated amount then exceeds the single maximum for ever.", "anchors": ["pallets/operation/src/lib.rs::unstaking_release", "pallets/operation/src/lib.rs::release_staking_balance"]}
{"id": "C86", "title": "Bridging out needs the owner's request", "statement": "Money leaves an account by the bridge only if its owner applied for a bridge transfer.", "quantifier": "all histories", "why_tests_cant": "A statement about all histories of admin calls.", "anchors": ["pallets/operation/src/lib.rs::bridge_deeper_to_other", "pallets/operation/src/lib.rs::apply_for_bridge_transfer"]}
{"id": "C87", "title": "Release totals equal the money paid", "statement": "The total of releases recorded equals the money actually paid out.", "quantifier": "all histories", "why_tests_cant": "Differs only for accounts that do not exist yet and shares below the existential deposit.", "anchors": ["pallets/operation/src/lib.rs::release_staking_balance"]}
{"id": "C88", "title": "Only the owner moves a stake", "statement": "A call changes the ledger of a stash only if it is bonding by the stash, unbonding, withdrawing, rebonding or burning by its controller, a forced unstake by Root, or the removal of an account that holds exactly the existential deposit.", "quantifier": "all histories and calls", "why_tests_cant": "A test tries a few callers on a few states; the claim is about every call from every account in every reachable state.", "anchors": ["pallets/staking/src/lib.rs::bond", "pallets/staking/src/lib.rs::bond_extra", "pallets/staking/src/lib.rs::unbond", "pallets/staking/src/lib.rs::withdraw_unbonded", "pallets/staking/src/lib.rs::rebond", "pallets/staking/src/lib.rs::force_unstake", "pallets/staking/src/lib.rs::reap_stash"]}
{"id": "C89", "title": "Lock calls act on the named accounts only", "statement": "Reserving moves exactly the amount from free to reserved of the named account; removing a lock changes no balance; unlocking by Root moves exactly the amount between the two named accounts and touches no reserve and nobody else; an application for a bridge transfer names its signer.", "quantifier": "all states, callers and amounts", "why_tests_cant": "Frame conditions over all accounts and states.", "anchors": ["pallets/operation/src/lib.rs::force_reserve_by_member", "pallets/operation/src/lib.rs::force_remove_lock", "pallets/operation/src/lib.rs::unlock_assets_via_democracy", "pallets/operation/src/lib.rs::apply_for_bridge_transfer"]}
{"id": "C90", "title": "Tip calls need the right caller", "statement": "Only tippers open tips without deposit or declare values, only the opener of a tip retracts it, only the rejecting origin slashes it, only Root names the account that pays; a failing call changes nothing.", "quantifier": "all histories, callers and calls", "why_tests_cant": "Quantifies over every caller, member set and state.", "anchors": ["pallets/tips/src/lib.rs::report_awesome", "pallets/tips/src/lib.rs::retract_tip", "pallets/tips/src/lib.rs::tip_new", "pallets/tips/src/lib.rs::tip", "pallets/tips/src/lib.rs::slash_tip", "pallets/tips/src/lib.rs::credit_tip_new", "pallets/tips/src/lib.rs::credit_tip", "pallets/tips/src/lib.rs::set_tip_owner_address"]}
{"id": "C91", "title": "Only publicly reported tips can be retracted", "statement": "Retracting succeeds only for a tip opened by report_awesome (and not by tip_new), for its opener, and returns exactly the deposit (documentation of retract_tip).", "quantifier": "all histories", "why_tests_cant": "Depends on how each open tip was opened.", "anchors": ["pallets/tips/src/lib.rs::retract_tip", "pallets/tips/src/lib.rs::tip_new", "pallets/tips/src/lib.rs::credit_tip_new"]}
{"id": "C92", "title": "Tips move no money but the payout and the deposit", "statement": "No call of the tips pallet creates or destroys money; nobody loses any, except that the tip account pays at most the median at a closing and the opener of a slashed tip loses the deposit.", "quantifier": "all histories, calls and accounts", "why_tests_cant": "A frame property over all accounts and amounts.", "anchors": ["pallets/tips/src/lib.rs::payout_tip", "pallets/tips/src/lib.rs::retract_tip", "pallets/tips/src/lib.rs::slash_tip", "pallets/tips/src/lib.rs::report_awesome"]}
{"id": "C93", "title": "Staking moves no money but rewards, slashes, burns and purchases", "statement": "Every step of the staking pallet creates exactly the amounts its reward events say and changes no reserve; nobody loses more free balance than their slashes, their burn or the price of the credit level they buy, apart from a rest below the existential deposit.", "quantifier": "all histories, steps and accounts", "why_tests_cant": "A frame property over every account and amount, also across the hooks.", "anchors": ["pallets/staking/src/lib.rs::staking_delegate", "pallets/staking/src/lib.rs::validator_burn", "pallets/staking/src/lib.rs::make_validator_payout", "pallets/staking/src/lib.rs::pay_delegators", "pallets/staking/src/lib.rs::on_offence", "pallets/staking/src/slashing.rs::do_slash", "pallets/staking/src/slashing.rs::pay_reporters"]}
{"id": "C94", "title": "Deferred slashes wait exactly the defer duration and are applied once", "statement": "A reported slash is queued under the active era and leaves stakes and balances alone; it stays until it is cancelled or the first era starts that is more than the defer duration later, and then is applied exactly once, in order, to the stash it names.", "quantifier": "all histories, reports and eras", "why_tests_cant": "Ties a report to an effect many eras later, over all interleavings.", "anchors": ["pallets/staking/src/lib.rs::on_offence", "pallets/staking/src/lib.rs::apply_unapplied_slashes", "pallets/staking/src/lib.rs::start_era", "pallets/staking/src/lib.rs::cancel_deferred_slash", "pallets/staking/src/slashing.rs::apply_slash"]}
{"id": "C95", "title": "At the end of an era every elected validator is paid by its share of points", "statement": "When an era ends, each elected validator's payee receives the era reward (or what is left of the mining pool) times the validator's share of the era's points, to half a unit and one part per billion; with the Staked destination the stake grows by the same amount; the pool falls by the total; nobody else's balance or stake changes; sessions that end no era pay nothing.", "quantifier": "all histories and validators, for payees that exist", "why_tests_cant": "Depends on the points, payees and ledgers of all validators at once, in every state.", "anchors": ["pallets/staking/src/lib.rs::end_session", "pallets/staking/src/lib.rs::end_era", "pallets/staking/src/lib.rs::pay_validators", "pallets/staking/src/lib.rs::make_validator_payout"]}
{"id": "C96", "title": "Reward points count the blocks authored in the era", "statement": "While an era is active its points are exactly 20 per block authored since it started, in total and for each validator, whatever else happens (with at least two eras of history kept).", "quantifier": "all histories within the era", "why_tests_cant": "Counts over histories of any length, across all calls, elections and offences.", "anchors": ["pallets/staking/src/lib.rs::note_author", "pallets/staking/src/lib.rs::reward_by_ids", "pallets/staking/src/lib.rs::new_era", "pallets/staking/src/lib.rs::clear_era_information", "pallets/staking/src/lib.rs::set_history_depth"]}
{"id": "C97", "title": "Nobody holds two roles and seats are limited", "statement": "Members and candidates are kept sorted, no account is a member, runner-up and candidate at the same time, and there are never more members or runners-up than the configured numbers.", "quantifier": "all histories and every election algorithm that returns distinct standing candidates", "why_tests_cant": "The sorted lists are searched by bisection; one insertion out of place in any history would let an account stand twice.", "anchors": ["pallets/elections-phragmen/src/lib.rs::submit_candidacy", "pallets/elections-phragmen/src/lib.rs::do_phragmen", "pallets/elections-phragmen/src/lib.rs::remove_and_replace_member", "pallets/elections-phragmen/src/lib.rs::renounce_candidacy"]}
{"id": "C98", "title": "Reserved balances equal bonds and vote deposits", "statement": "What an account has reserved is exactly its vote deposit plus its candidacy bond plus what other pallets reserved; whoever stands has exactly the candidacy bond, unless named at genesis; nobody else has one.", "quantifier": "all histories and accounts", "why_tests_cant": "An accounting identity over every interleaving of votes, candidacies, elections and removals.", "anchors": ["pallets/elections-phragmen/src/lib.rs::vote", "pallets/elections-phragmen/src/lib.rs::remove_voter", "pallets/elections-phragmen/src/lib.rs::submit_candidacy", "pallets/elections-phragmen/src/lib.rs::renounce_candidacy", "pallets/elections-phragmen/src/lib.rs::do_phragmen", "pallets/elections-phragmen/src/lib.rs::remove_member", "pallets/elections-phragmen/src/lib.rs::clean_defunct_voters"]}
{"id": "C99", "title": "A signed call touches the caller's affairs only", "statement": "A signed call leaves other accounts' money, votes, locks, bonds and roles alone, except that a runner-up may take the seat the caller gives up; the caller's free plus reserved balance stays the same.", "quantifier": "all reachable states, callers and calls", "why_tests_cant": "A frame property over all other accounts.", "anchors": ["pallets/elections-phragmen/src/lib.rs::vote", "pallets/elections-phragmen/src/lib.rs::remove_voter", "pallets/elections-phragmen/src/lib.rs::submit_candidacy", "pallets/elections-phragmen/src/lib.rs::renounce_candidacy"]}
{"id": "C100", "title": "Whoever stands can renounce and gets exactly the bond back", "statement": "Members, runners-up and candidates can always renounce their role; they then hold no role and their bond moves from reserved to free, exactly.", "quantifier": "all reachable states and accounts", "why_tests_cant": "That the call always succeeds depends on the sortedness and the books of every reachable state.", "anchors": ["pallets/elections-phragmen/src/lib.rs::renounce_candidacy", "pallets/elections-phragmen/src/lib.rs::remove_and_replace_member"]}
{"id": "C101", "title": "An election takes exactly the losers' bonds", "statement": "After an election everybody with a seat stood before and keeps bond and balance; everybody else who stood loses exactly the bond, as an event says, and nothing more; no candidate is left. Without a new term nothing changes.", "quantifier": "all reachable states and election algorithms", "why_tests_cant": "Outgoing members, runners-up and candidates are told apart by three sorted-list searches.", "anchors": ["pallets/elections-phragmen/src/lib.rs::do_phragmen"]}
{"id": "C102", "title": "Seats go by the election's ranking and the best runner-up moves up", "statement": "The members are the first winners with backing, the runners-up the next ones, with their backing recorded and the council told; a member who leaves is replaced by the best runner-up.", "quantifier": "all reachable states and election results", "why_tests_cant": "Depends on the order in which the runners-up list is kept through all histories.", "anchors": ["pallets/elections-phragmen/src/lib.rs::do_phragmen", "pallets/elections-phragmen/src/lib.rs::remove_and_replace_member"]}
{"id": "C103", "title": "The prime is the member with the highest Borda count", "statement": "After an election the prime is the new member with the highest weighted count of votes by position, the highest account among equals; the prime is always a council member, and stays prime until leaving or until the next election.", "quantifier": "all reachable states, ballots and stakes", "why_tests_cant": "Saturating sums over all ballots; ties; removals between elections.", "anchors": ["pallets/elections-phragmen/src/lib.rs::do_phragmen", "pallets/elections-phragmen/src/lib.rs::remove_and_replace_member"]}
{"id": "C104", "title": "The council consists of the elected members", "statement": "The council's member list is always the list of the elections pallet, and every change announced to it names exactly who came and who went.", "quantifier": "all histories", "why_tests_cant": "Two pallets' lists must agree after any history.", "anchors": ["pallets/elections-phragmen/src/lib.rs::do_phragmen", "pallets/elections-phragmen/src/lib.rs::remove_and_replace_member", "pallets/elections-phragmen/src/lib.rs::GenesisBuild", "runtime/src/lib.rs::InitializeMembers"]}
{"id": "C105", "title": "Seats are lost only by renouncing, by Root or in an election", "statement": "Only Root removes members and cleans up voters; a seat is lost only by its holder's own call, by Root naming the holder, or in an election; Root's removal takes or returns exactly the bond and touches nobody else's money.", "quantifier": "all histories, callers and calls", "why_tests_cant": "Quantifies over every caller and state.", "anchors": ["pallets/elections-phragmen/src/lib.rs::remove_member", "pallets/elections-phragmen/src/lib.rs::renounce_candidacy", "pallets/elections-phragmen/src/lib.rs::do_phragmen"]}
{"id": "C106", "title": "A vote stays until its voter or a cleanup removes it", "statement": "A voter's record changes only by the voter's own call, or by Root's cleanup when nobody on the ballot stands any more; the cleanup removes exactly those, returns deposit and lock, and touches nobody else; removing one's vote returns the deposit and ends the lock.", "quantifier": "all histories, voters and calls", "why_tests_cant": "A frame property over all voters and all calls.", "anchors": ["pallets/elections-phragmen/src/lib.rs::vote", "pallets/elections-phragmen/src/lib.rs::remove_voter", "pallets/elections-phragmen/src/lib.rs::clean_defunct_voters", "pallets/elections-phragmen/src/lib.rs::is_defunct_voter", "pallets/elections-phragmen/src/lib.rs::do_remove_voter"]}
{"id": "C107", "title": "Voting stake is locked", "statement": "Every recorded vote has 1 to 16 names, the exact deposit, and its stake locked on the voter's account.", "quantifier": "all histories and voters", "why_tests_cant": "Locks and records are changed by different calls; they must agree after any history.", "anchors": ["pallets/elections-phragmen/src/lib.rs::vote", "pallets/elections-phragmen/src/lib.rs::do_remove_voter", "pallets/elections-phragmen/src/lib.rs::GenesisBuild"]}
{"id": "C108", "title": "Elections are held exactly at the end of terms", "statement": "Elections are held in the blocks whose number is a multiple of the term and in no others; the outcome (empty, error or new term) is determined by the candidates, the number of voters and the algorithm; the round counter counts the new terms.", "quantifier": "all block numbers and histories", "why_tests_cant": "Counts over histories of any length.", "anchors": ["pallets/elections-phragmen/src/lib.rs::on_initialize", "pallets/elections-phragmen/src/lib.rs::do_phragmen"]}
{"id": "C109", "title": "Candidates have an email identity", "statement": "Whoever holds a role was named at genesis or submitted a candidacy while having an email identity.", "quantifier": "all histories", "why_tests_cant": "Traces every seat in every history back to a call.", "anchors": ["pallets/elections-phragmen/src/lib.rs::submit_candidacy"]}
{"id": "C110", "title": "No more candidates than MaxCandidates", "statement": "When MaxCandidates is reached no more candidates are accepted (documentation of the configuration).", "quantifier": "all histories", "why_tests_cant": "An off-by-one at a limit of 1000 that no test reaches.", "anchors": ["pallets/elections-phragmen/src/lib.rs::submit_candidacy", "pallets/elections-phragmen/src/lib.rs::MaxCandidates"]}
{"id": "C111", "title": "Voters beyond MaxVoters are ignored", "statement": "When there are more than MaxVoters voters the new voters are ignored (documentation of the configuration).", "quantifier": "all histories", "why_tests_cant": "The limit of 1000 voters is not reached in tests; what happens beyond it is a statement about every later election.", "anchors": ["pallets/elections-phragmen/src/lib.rs::do_phragmen", "pallets/elections-phragmen/src/lib.rs::MaxVoters"]}
{"id": "C112", "title": "After a removal an election is held only if no runner-up moves up", "statement": "If a runner-up is there to take the removed member's seat no election is held; otherwise one is held if asked for (documentation of remove_member).", "quantifier": "all reachable states", "why_tests_cant": "The two branches coincide in what most tests look at.", "anchors": ["pallets/elections-phragmen/src/lib.rs::remove_member"]}
{"id": "C113", "title": "Duplicate votes are ignored", "statement": "A name that is repeated on a ballot counts once (module documentation).", "quantifier": "all reachable states and ballots", "why_tests_cant": "Quantifies over all ballots with repetitions and their effect on the prime.", "anchors": ["pallets/elections-phragmen/src/lib.rs::do_phragmen", "pallets/elections-phragmen/src/lib.rs::vote"]}
{"id": "C114", "title": "Elections destroy exactly the money their events report", "statement": "No call or block of the elections pallet creates money; what it destroys is exactly the sum of the slashes in its events.", "quantifier": "all reachable states, calls and blocks", "why_tests_cant": "A sum over all accounts in every reachable state.", "anchors": ["pallets/elections-phragmen/src/lib.rs::do_phragmen", "pallets/elections-phragmen/src/lib.rs::remove_member"]}
{"id": "C115", "title": "When a vote is accepted and what it does", "statement": "A vote is accepted exactly if it has 1 to 16 names, no more than accounts that stand, a value above the existential deposit, and the missing part of the deposit can be set aside; it replaces the former vote, the deposit is exact, and the stake is the value or all that is free.", "quantifier": "all reachable states, voters, ballots and values", "why_tests_cant": "An equivalence over all states and arguments.", "anchors": ["pallets/elections-phragmen/src/lib.rs::vote"]}
{"id": "C116", "title": "When a candidacy is accepted and what it does", "statement": "A candidacy is accepted exactly if the announced count and the limit allow it, the account has an email identity, holds no role and can set the bond aside; then exactly the bond is reserved and nobody else's role changes.", "quantifier": "all reachable states, accounts and counts", "why_tests_cant": "An equivalence over all states and arguments.", "anchors": ["pallets/elections-phragmen/src/lib.rs::submit_candidacy"]}
{"id": "C117", "title": "Who stands as a validator and who is paid for it", "statement": "Only bonded stashes stand as validators and exactly they have a payee; an account starts to stand only by its controller's validate, stops only by its controller's chill, when its stake is dissolved or when it is reported; a first report for an era of the ongoing span always ends the standing; the payee is set only by bonding and by the controller.", "quantifier": "all reachable states and steps", "why_tests_cant": "Quantifies over every call and hook that could touch validators or payees, in every reachable state.", "anchors": ["pallets/staking/src/lib.rs::validate", "pallets/staking/src/lib.rs::chill", "pallets/staking/src/lib.rs::set_payee", "pallets/staking/src/lib.rs::kill_stash", "pallets/staking/src/slashing.rs::compute_slash"]}
{"id": "C118", "title": "Dissolving a stake needs the number of spans and leaves nothing behind", "statement": "A stake is dissolved only by Root, by a withdrawal of a controller when everything is due and at most the existential deposit is active, or by anyone when the account holds just the existential deposit; each only if at least as many slashing spans are named as are stored; afterwards bond, ledger, payee, standing, lock, spans and span records are gone and every other stash is untouched.", "quantifier": "all reachable states, calls and callers", "why_tests_cant": "An equivalence for each call and a frame condition over all other stashes.", "anchors": ["pallets/staking/src/lib.rs::withdraw_unbonded", "pallets/staking/src/lib.rs::force_unstake", "pallets/staking/src/lib.rs::reap_stash", "pallets/staking/src/lib.rs::kill_stash", "pallets/staking/src/slashing.rs::clear_stash_metadata"]}
{"id": "C119", "title": "Delegations go to validators, by the delegator's wish", "statement": "delegate is accepted exactly if the caller is no validator, the list is not empty, names no more than MaxDelegates distinct accounts, all of them validators, and the caller's credit suffices; in no step does anyone's choice change otherwise than by vanishing, by their own call, or by a credit administrator noting a payment, and then it names validators only.", "quantifier": "all states and steps", "why_tests_cant": "An equivalence over all states and lists, and a statement about every other call and hook.", "anchors": ["pallets/staking/src/lib.rs::delegate", "pallets/staking/src/lib.rs::do_delegate", "pallets/staking/src/lib.rs::staking_delegate", "pallets/staking/src/lib.rs::usdt_staking_delegate"]}
{"id": "C120", "title": "Nobody is a validator and a delegator at once", "statement": "An account that stands as validator does not delegate: delegate refuses validators.", "quantifier": "all histories", "why_tests_cant": "Depends on the order of calls over a history.", "anchors": ["pallets/staking/src/lib.rs::delegate", "pallets/staking/src/lib.rs::validate"]}
{"id": "C121", "title": "What each kind of proxy is for", "statement": "A proxy of kind NonTransfer may make every call except those of Balances, Vesting::vested_transfer and Indices::transfer; Governance only calls of the six governance pallets; Staking only calls of Staking; the declared order of the kinds is exactly the order by what they may call.", "quantifier": "all calls and kinds", "why_tests_cant": "An equivalence over every call of every pallet; a wrong order would let a narrow proxy appoint a wider one.", "anchors": ["runtime/src/lib.rs::ProxyType", "runtime/src/lib.rs::filter", "runtime/src/lib.rs::is_superset"]}
{"id": "C122", "title": "An account held through narrow proxies only does what they may", "statement": "An account that signs nothing itself and all of whose proxies are of kinds within t executes only calls t is for, whatever anybody submits and however calls are nested.", "quantifier": "all states, all lists of extrinsics by all other accounts, all nestings of batches, proxies, multisigs, derived accounts and recoveries", "why_tests_cant": "The ways in which one call can lead to another are unbounded; tests try single calls.", "anchors": ["runtime/src/lib.rs::ProxyType", "runtime/src/lib.rs::filter", "runtime/src/lib.rs::is_superset", "runtime/src/lib.rs::BaseCallFilter"]}
{"id": "C123", "title": "A proxy makes its principal do only what its kind is for", "statement": "Whatever call a proxy of kind t passes to its principal, the principal executes only calls t is for.", "quantifier": "all states, calls and nestings", "why_tests_cant": "Quantifies over all nested calls and all relations among accounts.", "anchors": ["runtime/src/lib.rs::ProxyType", "runtime/src/lib.rs::filter", "runtime/src/lib.rs::is_superset"]}
{"id": "C124", "title": "Paused calls are not executed", "statement": "A paused call is executed by nobody at any depth of nesting, and what is paused does not change, unless Root acts or the sudo key is used; no pause ever touches Sudo, System or TxPause, and the sudo key can lift every pause.", "quantifier": "all states, all lists of extrinsics, all nestings", "why_tests_cant": "Quantifies over every way of wrapping a call.", "anchors": ["runtime/src/lib.rs::BaseCallFilter", "runtime/src/lib.rs::TxPauseWhitelistedCalls", "runtime/src/lib.rs::contains"]}
{"id": "C125", "title": "A pause can be lifted in a further block", "statement": "Whatever has been paused, the holder of the sudo key can lift it in a further block.", "quantifier": "all states and blocks", "why_tests_cant": "A statement about the existence of a successor block for every state.", "anchors": ["runtime/src/lib.rs::BaseCallFilter", "runtime/src/lib.rs::TxPauseWhitelistedCalls"]}
{"id": "C126", "title": "transfer_keep_alive cannot be paused", "statement": "As the comment at the whitelist says, Balances::transfer_keep_alive is whitelisted: it cannot be paused; all other calls can.", "quantifier": "all states, all lists of extrinsics", "why_tests_cant": "Quantifies over all histories and call names.", "anchors": ["runtime/src/lib.rs::TxPauseWhitelistedCalls"]}
{"id": "C127", "title": "The node migration keeps every device", "statement": "The upgrade from storage version 0 turns every stored device of the old form into one of the new form with the same account, country and expiry, leaves devices already of the new form and undecodable bytes as they are, adds and removes none, and later upgrades change nothing.", "quantifier": "all storage contents, byte by byte; all field lengths", "why_tests_cant": "Quantifies over all encodings of all records; the two forms share a prefix, so that one could be mistaken for the other.", "anchors": ["pallets/deeper-node/src/migration.rs::on_runtime_upgrade", "pallets/deeper-node/src/migration.rs::OldNode", "pallets/deeper-node/src/lib.rs::Node", "pallets/deeper-node/src/lib.rs::STORAGE_VERSION"]}
{"id": "C128", "title": "Fees and tips are shared between treasury and author", "statement": "Of the fee and of the tip four fifths go to the treasury and the rest to the block's author, the payer gets the unused part of the advance back, nobody else's balance changes, and no money appears or vanishes; without an author their share is destroyed.", "quantifier": "all balances, fees, tips, payers, treasuries and authors, also when these coincide", "why_tests_cant": "Rounding and coincidences of the three accounts cannot be enumerated.", "anchors": ["runtime/src/lib.rs::DealWithFees", "runtime/src/lib.rs::on_unbalanceds", "runtime/src/impls.rs::Author", "runtime/src/impls.rs::on_nonzero_unbalanced"]}
{"id": "C129", "title": "The payer is charged the actual fee", "statement": "The difference between the fee taken in advance and the actual fee comes back to the payer whatever the call did.", "quantifier": "all balances, fees and effects of the call", "why_tests_cant": "Depends on every possible effect of the paid call on the payer's account.", "anchors": ["runtime/src/lib.rs::OnChargeTransaction", "runtime/src/lib.rs::DealWithFees"]}
{"id": "C130", "title": "A motion is executed only with the votes it claims", "statement": "A call is executed as Members(n, m) only if m members sit and n >= 2 of them stand for it by their last vote; or the motion has had its time, the sitting prime stands for it and all but n stand against it; or a sitting member proposed it alone and n = 1. A vote counts exactly if it changes a sitting member's stance; a motion can be closed exactly if it is decided or has had its time.", "quantifier": "all histories of proposals, votes, closings and changes of members and prime", "why_tests_cant": "Votes are kept incrementally over any history of membership changes.", "anchors": ["runtime/src/lib.rs::CouncilCollective", "runtime/src/lib.rs::TechnicalCollective", "runtime/src/lib.rs::DefaultVote"]}
{"id": "C131", "title": "A straight majority of the council", "statement": "As the comment says, what is done as ExternalOrigin is backed by more than half of the sitting council.", "quantifier": "all histories", "why_tests_cant": "Quantifies over all histories of votes.", "anchors": ["runtime/src/lib.rs::ExternalOrigin", "runtime/src/lib.rs::DefaultVote"]}
{"id": "C132", "title": "A unanimous council", "statement": "As the comments say, what is done as ExternalDefaultOrigin or CancelProposalOrigin is backed by every sitting member.", "quantifier": "all histories", "why_tests_cant": "Quantifies over all histories of votes.", "anchors": ["runtime/src/lib.rs::ExternalDefaultOrigin", "runtime/src/lib.rs::CancelProposalOrigin", "runtime/src/lib.rs::InstantOrigin", "runtime/src/lib.rs::DefaultVote"]}
{"id": "C133", "title": "The fee multiplier follows the load", "statement": "Whatever the blocks, the multiplier stays within its bounds. A block above the target fullness never lowers it and one below never raises it; clearly above it always grows, clearly below it always shrinks, from every value, so it cannot get stuck at its minimum; lasting congestion takes it to any height and lasting quiet back to the minimum; a heavier block never leaves a lower multiplier.", "quantifier": "all multipliers, block weights and sequences of blocks", "why_tests_cant": "The unit tests try a few weights and multipliers; rounding in 18-digit arithmetic could stall the multiplier at others.", "anchors": ["runtime/src/lib.rs::FeeMultiplierUpdate", "runtime/src/lib.rs::TargetBlockFullness", "runtime/src/lib.rs::AdjustmentVariable", "runtime/src/lib.rs::MinimumMultiplier", "runtime/src/lib.rs::RuntimeBlockWeights", "runtime/src/impls.rs::multiplier_can_grow_from_zero", "runtime/src/impls.rs::weight_mul_grow_on_big_block"]}
{"id": "C134", "title": "Fees change slowly", "statement": "Within a day (17280 blocks) the multiplier cannot rise by more than 15 % nor fall by more than 5 %, whatever the blocks contain; in general k blocks divide it by at most 1 - 7.5001 k / 10^6.", "quantifier": "all sequences of blocks", "why_tests_cant": "A statement about every sequence of thousands of blocks.", "anchors": ["runtime/src/lib.rs::AdjustmentVariable", "runtime/src/lib.rs::TargetBlockFullness", "runtime/src/impls.rs::min_change_per_day"]}
{"id": "C135", "title": "What a transaction costs", "statement": "The fee is the base fee, a millicent per byte, the weight times the multiplier and the tip; a longer or heavier transaction never costs less; what is settled after the call never exceeds what was taken before it, whatever weight the call reports.", "quantifier": "all lengths, weights, tips and multipliers", "why_tests_cant": "Saturating arithmetic and caps over the whole ranges.", "anchors": ["runtime/src/lib.rs::WeightToFee", "runtime/src/lib.rs::LengthToFee", "runtime/src/lib.rs::TransactionByteFee"]}
{"id": "C136", "title": "Sessions and eras follow one another", "statement": "Sessions start in order, none skipped; session 0 is in era 0; the next session is in the same era or the next one; the active era is that of the last session started. If Root does not force eras and nobody is disabled by a report, session j is in era j / SessionsPerEra.", "quantifier": "all histories in which the session pallet keeps its order, with the history depth at least 1", "why_tests_cant": "Concerns every interleaving of calls, offences and rotations, over any number of eras.", "anchors": ["pallets/staking/src/lib.rs::new_session", "pallets/staking/src/lib.rs::start_session", "pallets/staking/src/lib.rs::end_session", "pallets/staking/src/lib.rs::start_era", "pallets/staking/src/lib.rs::new_era"]}
{"id": "C137", "title": "When the next era begins", "statement": "From any point on, the eras of all later sessions follow from the mode, the current era and its first session: none is planned while eras are off, one per session while they are forced, one at the next chance and then regularly after force_new_era, and regularly otherwise. Only Root, the era that was asked for and a report that disables somebody change the mode.", "quantifier": "all histories and later histories, all four modes", "why_tests_cant": "The mode acts over unboundedly many later sessions.", "anchors": ["pallets/staking/src/lib.rs::new_session", "pallets/staking/src/lib.rs::force_no_eras", "pallets/staking/src/lib.rs::force_new_era", "pallets/staking/src/lib.rs::force_new_era_always", "pallets/staking/src/lib.rs::ensure_new_era"]}
{"id": "C138", "title": "A report is put on the era in which its session ran", "statement": "A report about session j charges stakes for the era that was active when j ran, if that is at most BondingDuration eras ago; an older report changes nothing.", "quantifier": "all histories, sessions and reports", "why_tests_cant": "The mapping from sessions to eras is pruned at every era, over unboundedly many eras.", "anchors": ["pallets/staking/src/lib.rs::on_offence", "pallets/staking/src/lib.rs::start_era", "pallets/staking/src/lib.rs::BondedEras", "pallets/staking/src/lib.rs::ErasStartSessionIndex"]}
{"id": "C139", "title": "Each era is paid once to those elected for it", "statement": "Validators are paid for era e exactly when its last session ends, once; those paid are the set elected for e, or nobody if the election failed.", "quantifier": "all histories in which the session pallet keeps its order", "why_tests_cant": "Double payment or a skipped era needs a particular history; the claim covers all of them.", "anchors": ["pallets/staking/src/lib.rs::end_session", "pallets/staking/src/lib.rs::end_era", "pallets/staking/src/lib.rs::start_session", "pallets/staking/src/lib.rs::elect_validators"]}
{"id": "C140", "title": "Who authors blocks is paid for them", "statement": "A validator in charge during an era is paid at its end in proportion to its points.", "quantifier": "all histories", "why_tests_cant": "Depends on failed elections some eras earlier.", "anchors": ["pallets/staking/src/lib.rs::new_era", "pallets/staking/src/lib.rs::elect_validators", "pallets/staking/src/lib.rs::end_era", "pallets/staking/src/lib.rs::ErasValidators"]}
{"id": "C141", "title": "Root can stop eras", "statement": "As the call's documentation says, after force_no_eras there are no new eras until Root says otherwise.", "quantifier": "all later histories", "why_tests_cant": "Any later event of any kind could override the mode.", "anchors": ["pallets/staking/src/lib.rs::force_no_eras", "pallets/staking/src/lib.rs::ensure_new_era"]}
{"id": "C142", "title": "Delegators are paid what their credit earned", "statement": "All that a delegator is ever paid is backed by different eras of the past, each within its reward period and priced by the credit record in force in that era. Each payment covers all eras since the previous one, and is made in full while the pool lasts unless the account is blacklisted or the amount too small to open an account.", "quantifier": "all histories of the credit and staking pallets together, all delegators", "why_tests_cant": "The pay of an era depends on both pallets' whole histories: credit changes, slashes, campaigns, payouts and cursors interleave over unboundedly many eras.", "anchors": ["pallets/staking/src/lib.rs::on_initialize", "pallets/staking/src/lib.rs::pay_delegators", "pallets/staking/src/lib.rs::_delegate", "pallets/staking/src/lib.rs::_undelegate", "pallets/credit/src/lib.rs::get_reward", "pallets/credit/src/lib.rs::init_delegator_history", "pallets/credit/src/lib.rs::update_credit_history", "pallets/credit/src/lib.rs::slash_credit"]}
{"id": "C143", "title": "No hook panics", "statement": "No step the runtime makes on its own panics: neither the hooks of a block of the credit and staking pallets, nor session changes, nor offence reports. A panic there means that no further block can be built.", "quantifier": "all histories of the credit and staking pallets together", "why_tests_cant": "A panic needs a delegator who lost the credit record between being exposed and being slashed many eras later, or prices that add up to 2^128.", "anchors": ["pallets/staking/src/lib.rs::start_era", "pallets/staking/src/lib.rs::apply_unapplied_slashes", "pallets/staking/src/lib.rs::on_initialize", "pallets/staking/src/lib.rs::force_unstaking_delegate", "pallets/staking/src/lib.rs::on_offence", "pallets/credit/src/lib.rs::slash_credit", "pallets/credit/src/lib.rs::update_credit_history", "pallets/credit/src/lib.rs::set_price", "pallets/credit/src/lib.rs::get_reward"]}
{"id": "C144", "title": "Who delegates has the credit for it", "statement": "In every state every delegating account has a credit record of at least the score asked of delegators: nobody delegates without it, and whoever falls below it is undelegated.", "quantifier": "all histories of the credit and staking pallets together, all accounts", "why_tests_cant": "The credit can fall in either pallet, by many different steps, long after the delegation.", "anchors": ["pallets/staking/src/lib.rs::do_delegate", "pallets/staking/src/lib.rs::_undelegate", "pallets/staking/src/lib.rs::force_undelegate", "pallets/staking/src/lib.rs::force_unstaking_delegate", "pallets/staking/src/lib.rs::apply_unapplied_slashes", "pallets/credit/src/lib.rs::pass_threshold", "pallets/credit/src/lib.rs::slash_credit", "pallets/credit/src/lib.rs::evm_update_credit", "pallets/credit/src/lib.rs::do_unstaking_slash_credit", "pallets/credit/src/lib.rs::get_reward", "pallets/credit/src/lib.rs::add_or_update_credit_data"]}
{"id": "C145", "title": "A campaign pays for a limited number of eras", "statement": "A delegator is paid for at most as many eras as its campaign has, whatever it does in between.", "quantifier": "all histories of the credit and staking pallets together, all accounts", "why_tests_cant": "The period is counted by one pallet from a date that the other has it write; leaving, rejoining, credit changes and payments interleave over unboundedly many eras.", "anchors": ["pallets/staking/src/lib.rs::_undelegate", "pallets/staking/src/lib.rs::_delegate", "pallets/staking/src/lib.rs::pay_delegators", "pallets/credit/src/lib.rs::init_delegator_history", "pallets/credit/src/lib.rs::get_reward", "pallets/credit/src/lib.rs::update_credit_history"]}
{"id": "C146", "title": "Every era of a stay is paid for", "statement": "From joining on, the eras for which a delegator is paid follow one another without gap or repetition; who leaves is still paid for the eras before.", "quantifier": "all histories of the credit and staking pallets together, all accounts", "why_tests_cant": "The two pallets count eras differently, and payments are spread over blocks and may skip eras; a gap needs leaving between two particular blocks.", "anchors": ["pallets/staking/src/lib.rs::_undelegate", "pallets/staking/src/lib.rs::_delegate", "pallets/staking/src/lib.rs::pay_delegators", "pallets/staking/src/lib.rs::on_initialize", "pallets/credit/src/lib.rs::get_current_era"]}
{"id": "C147", "title": "The credit history reaches back to the first unpaid era", "statement": "Whenever the pay of a delegator is worked out, a credit record is in force in every era asked for, unless root or the EVM rewrote the history.", "quantifier": "all histories of the credit and staking pallets together, all accounts, all eras asked for", "why_tests_cant": "The history is written by one pallet and the first unpaid era kept by the other; they must agree after any sequence of joins, leaves, slashes and payments.", "anchors": ["pallets/staking/src/lib.rs::_delegate", "pallets/staking/src/lib.rs::pay_delegators", "pallets/credit/src/lib.rs::init_delegator_history", "pallets/credit/src/lib.rs::update_credit_history", "pallets/credit/src/lib.rs::get_reward"]}
{"id": "C148", "title": "Who pays for a credit level gets it", "statement": "Whoever buys a credit level with DPR pays exactly the difference of the two prices on the list of the campaign, and then has a score of the level asked for; what an admin enters as paid in USDT raises the score as far as the amount goes on the list. Nobody else's credit or money changes, and the buyer delegates.", "quantifier": "all states of the credit and staking pallets together, all accounts, levels, amounts and price lists", "why_tests_cant": "Price lists are set by officers at run time and scores take any value; the amount and the rise are computed in different pallets.", "anchors": ["pallets/staking/src/lib.rs::do_staking_delegate", "pallets/staking/src/lib.rs::do_usdt_staking_delegate", "pallets/staking/src/lib.rs::delegate_any", "pallets/credit/src/lib.rs::add_or_update_credit", "pallets/credit/src/lib.rs::get_credit_balance", "pallets/credit/src/lib.rs::set_credit_balances", "primitives/src/credit.rs::credit_level_gap"]}
{"id": "C149", "title": "Powers come from Root", "statement": "In the whole chain, whatever happened before: a call that has an effect comes from an origin that may make it: Root, a holder of the one privilege the call needs, an elected member, or any account for calls open to all. Which privileges an account holds follows from Root's calls alone; an account to which Root never gave a privilege can do nothing that needs it.", "quantifier": "all genesis states and histories of the runtime's own pallets together, all calls with all arguments and origins", "why_tests_cant": "Privileges are set in one pallet and used in six; no test can try every call after every history, nor rule out that some other call hands out power.", "anchors": ["pallets/user-privileges/src/lib.rs::set_user_privilege", "pallets/user-privileges/src/lib.rs::has_privilege", "runtime/src/lib.rs::construct_runtime", "pallets/credit/src/lib.rs::is_admin", "pallets/operation/src/lib.rs::unstaking_release", "pallets/staking/src/lib.rs::npow_mint"]}
{"id": "C150", "title": "The amount of DPR", "statement": "In the whole chain, as long as it fits u128: all DPR, free, reserved, in payment channels or destroyed, is what the genesis balances held and what rewards, mints, released stakes and fillings of the ADSC pool report as created. Only the hooks that pay delegators, validators and released stakes, the first ADSC upgrade, Root, and holders of NpowMint and ReleaseSetter create any.", "quantifier": "all genesis states and histories of the runtime's own pallets together, all calls with all arguments and origins", "why_tests_cant": "Money moves through eight pallets which hold it as balances, deposits, bonds and records of their own; a leak needs an interleaving no test chooses.", "anchors": ["runtime/src/lib.rs::construct_runtime", "pallets/micropayment/src/lib.rs::open_channel", "pallets/micropayment/src/lib.rs::claim_payment", "pallets/staking/src/lib.rs::pay_delegators", "pallets/staking/src/lib.rs::npow_mint", "pallets/staking/src/lib.rs::difference_compensation", "pallets/operation/src/lib.rs::unstaking_release", "pallets/adsc/src/lib.rs::add_pool_dpr_adsc", "pallets/credit/src/lib.rs::burn_for_add_credit"]}
{"id": "C151", "title": "Deposits are there", "statement": "In the whole chain: what is reserved on an account is at any time exactly what the chain owes it, that is the deposit of its registered device, those of its reports of tips, what locker members had reserved for it, and the deposits other pallets hold. No deposit pays for another one.", "quantifier": "all genesis states and histories of the runtime's own pallets together, all accounts", "why_tests_cant": "Reserved balances are shared by pallets that do not know of each other, and unreserving takes what it finds.", "anchors": ["pallets/deeper-node/src/lib.rs::register_device_deprecated", "pallets/deeper-node/src/lib.rs::unregister_device", "pallets/tips/src/lib.rs::report_awesome", "pallets/tips/src/lib.rs::retract_tip", "pallets/operation/src/lib.rs::force_reserve_by_member", "runtime/src/lib.rs::construct_runtime"]}
{"id": "C152", "title": "Each pallet behaves in the chain as alone", "statement": "For the user privileges, the credit and staking pallets, the operation, ADSC and tips pallets: from what a pallet sees of the history of the whole chain (its own calls and hooks, what other pallets ask of it, and balances moved by others), its own model arrives at exactly the state and the events the pallet has in the whole chain. What holds of all histories of the single pallets therefore holds in the chain.", "quantifier": "all genesis states and histories of the runtime's own pallets together", "why_tests_cant": "Pallets share balances and call one another; that no other pallet reaches into a pallet's storage is a statement about all steps.", "anchors": ["runtime/src/lib.rs::construct_runtime", "pallets/operation/src/lib.rs::unstaking_release", "pallets/credit/src/lib.rs::update_credit_by_traffic", "pallets/credit/src/lib.rs::update_credit_by_tip", "pallets/tips/src/lib.rs::payout_tip"]}
{"id": "C153", "title": "Ceilings for new DPR", "statement": "In the whole chain: rewards, delegators' pay, mints for nPoW and compensations together never exceed the mining pool and what Root added to it, but for half a unit per validator when an almost empty pool is shared out. Stakes released on one day stay below the daily limit and one payment. All DPR and what may still be minted is at most the genesis balances, the mining pool with additions, the released stakes and the fillings of the ADSC pool.", "quantifier": "all genesis states and histories of the runtime's own pallets together with less than 10^9 points an era, times that do not go back, all days", "why_tests_cant": "A ceiling is a statement about every sequence of eras, blocks and calls.", "anchors": ["pallets/staking/src/lib.rs::pay_delegators", "pallets/staking/src/lib.rs::npow_mint", "pallets/staking/src/lib.rs::increase_mining_reward", "pallets/operation/src/lib.rs::unstaking_release", "pallets/operation/src/lib.rs::set_release_limit_parameter", "runtime/src/lib.rs::construct_runtime"]}
{"id": "C154", "title": "Credit is lost only for a cause", "statement": "In the whole chain a score falls only when an officer or Root rewrites the record or ends the stake, a release of the stake is entered, an EVM contract with the power to do so takes points from the address bound to the account, Root removes the delegator with a penalty, a payout finds the device in its fourth (seventh, ...) era without heartbeat and not in maintenance, or a validator it is exposed with is slashed, which costs at most one step for each slash reported. Who sends a heartbeat within every three eras loses nothing at payouts.", "quantifier": "all genesis states and histories of the runtime's own pallets together, times that do not go back, scores below 2^64", "why_tests_cant": "Six pallets and the EVM reach credit records; that nothing else lowers them is a statement about every call.", "anchors": ["pallets/credit/src/lib.rs::slash_credit", "pallets/credit/src/lib.rs::slash_offline_device_credit", "pallets/credit/src/lib.rs::update_credit_by_traffic", "pallets/credit/src/lib.rs::unstaking_slash_credit", "pallets/deeper-node/src/lib.rs::im_online", "pallets/deeper-node/src/lib.rs::get_eras_offline", "pallets/operation/src/lib.rs::unstaking_release", "pallets/staking/src/slashing.rs::do_slash"]}
{"id": "C155", "title": "A silent device costs a step of credit per three eras", "statement": "A delegator whose device sends no heartbeat loses one step of credit for every three eras of silence, as the comment in slash_offline_device_credit says.", "quantifier": "all histories, delegators and lengths of silence", "why_tests_cant": "When in an era a delegator is paid depends on how many delegators come before it in storage order, which changes as others join and leave.", "anchors": ["pallets/credit/src/lib.rs::slash_offline_device_credit", "pallets/credit/src/lib.rs::get_reward", "pallets/deeper-node/src/lib.rs::im_online", "pallets/deeper-node/src/lib.rs::get_eras_offline", "pallets/staking/src/lib.rs::pay_delegators"]}
{"id": "C156", "title": "A testnet starts with its authorities", "statement": "Whatever authorities, amounts, endowed accounts and credit data testnet_genesis is given, as long as stashes and controllers are distinct, amounts are not below the existential deposit and no earlier gift leaves a stash short: the chain is built; every authority has its stash bonded and stands for election; exactly the authorities are the validators of era 0, exposed with their own stake; era 0 is active; balances and credit are those listed and no other DPR exists. Every chain that is built from any specification is reached by a history of ordinary calls from empty staking storage, so all that holds of histories holds of it; nobody has a privilege from the start.", "quantifier": "all lists of authorities, endowed accounts, amounts, credit data and (for the history) all chain specifications", "why_tests_cant": "A test builds one specification with one or a few authorities.", "anchors": ["cli/src/chain_spec.rs::testnet_genesis", "pallets/staking/src/lib.rs::GenesisConfig", "pallets/staking/src/lib.rs::bond", "pallets/staking/src/lib.rs::validate", "pallets/staking/src/lib.rs::new_session", "pallets/credit/src/lib.rs::GenesisConfig"]}
{"id": "C157", "title": "Entries of a chain specification are honoured or the chain is refused", "statement": "Every staker and every delegation in a chain specification is in force in the first state of the chain, or the build stops.", "quantifier": "all chain specifications", "why_tests_cant": "The builders drop errors of bond and validate; whether an entry can be lost depends on all the others before it.", "anchors": ["pallets/staking/src/lib.rs::GenesisConfig", "pallets/staking/src/lib.rs::bond", "pallets/staking/src/lib.rs::validate", "pallets/staking/src/lib.rs::delegate", "pallets/credit/src/lib.rs::GenesisConfig", "runtime/src/lib.rs::construct_runtime"]}
{"id": "C158", "title": "An NFT leaves its holder with consent", "statement": "An NFT leaves the account that holds it only if the holder gives it away or burns it, sells it at the price it has set or approved the one who moves it, or the admin or owner of its collection (or Root) takes it. A price or an approval that stands was given by or for the present holder, and a sale pays that price.", "quantifier": "all genesis states and histories of the chain with pallet_uniques, all NFTs and holders", "why_tests_cant": "Blocks, ADSC and credit calls and the calls of pallet_uniques all reach NFTs; who may take one is a statement about every step.", "anchors": ["pallets/adsc/src/lib.rs::add_adsc_staking_account_with_nft", "pallets/adsc/src/lib.rs::remove_nft", "pallets/credit/src/lib.rs::burn_nft", "runtime/src/lib.rs::pallet_uniques::Config for Runtime"]}
{"id": "C159", "title": "An NFT is paid for once", "statement": "Burning an NFT for credit works only if it exists and its collection is worth credit, and it is gone afterwards: it is burned for credit at most as often as it has been made.", "quantifier": "all states and histories of the chain with pallet_uniques, all NFTs", "why_tests_cant": "Counts over whole histories, in which NFTs are made, moved, burned and made again by three pallets.", "anchors": ["pallets/credit/src/lib.rs::burn_nft", "pallets/adsc/src/lib.rs::add_adsc_staking_account_with_nft", "runtime/src/lib.rs::pallet_uniques::Config for Runtime"]}
{"id": "C160", "title": "NFTs worth credit come from the issuer of their collection", "statement": "Once a collection is worth credit, only the issuer it then had, or a credit admin, makes NFTs that can be burned for credit.", "quantifier": "all genesis states and histories of the chain with pallet_uniques, all collections", "why_tests_cant": "Collections may be destroyed and created again by others; a test uses one collection that stays.", "anchors": ["pallets/credit/src/lib.rs::update_nft_class_credit", "pallets/credit/src/lib.rs::burn_nft", "runtime/src/lib.rs::pallet_uniques::Config for Runtime"]}
{"id": "C161", "title": "An NFT serves as a stake or for credit, not for both", "statement": "An NFT that stands for an ADSC stake cannot be burned for credit while the stake lasts.", "quantifier": "all genesis states and histories of the chain with pallet_uniques", "why_tests_cant": "Two pallets use the same NFTs and do not know of one another.", "anchors": ["pallets/credit/src/lib.rs::burn_nft", "pallets/adsc/src/lib.rs::add_adsc_staking_account_with_nft", "pallets/adsc/src/lib.rs::remove_nft"]}
{"id": "C162", "title": "A credit admin can renew an NFT stake", "statement": "A credit admin can at any time give any account an ADSC stake with a new NFT of an existing collection.", "quantifier": "all genesis states and histories of the chain with pallet_uniques", "why_tests_cant": "Whether the old NFT can be removed depends on what its holder and the owner of its collection have done to it.", "anchors": ["pallets/adsc/src/lib.rs::add_adsc_staking_account_with_nft", "pallets/adsc/src/lib.rs::remove_nft", "runtime/src/lib.rs::pallet_uniques::Config for Runtime"]}
{"id": "C163", "title": "More credit never earns less", "statement": "If the credit settings rise with the level, then of two accounts in the same campaign with the same initial level and rank (and, in the dollar campaign, stakes of at least as many dollars), the one with at least the other's score in an era is paid at least as much for that era. Settings that rise at genesis keep rising through every hook and upgrade unless Root sets others.", "quantifier": "all genesis states whose levels follow from the scores, all histories, all pairs of accounts, all eras", "why_tests_cant": "A comparison between two accounts after any history; tests check the reward of one account in one setting.", "anchors": ["pallets/credit/src/lib.rs::calc_normal_daily_poc_reward", "pallets/credit/src/lib.rs::calc_usdt_daily_poc_reward", "pallets/credit/src/lib.rs::_update_credit_setting", "pallets/credit/src/credit_setting.rs::sub_genesis_apy", "pallets/credit/src/credit_setting.rs::half_campaign7_settings", "pallets/credit/src/credit_setting.rs::half_campaign8_settings", "cli/src/chain_spec.rs::campaign_0_credit_settings"]}
{"id": "C164", "title": "A year at a level pays the yearly rate of the level", "statement": "365 daily rewards of a level add up to its yearly rate on its staking balance, within one part in five million and 184 smallest units, for the base and the bonus reward of every level without a referral deduction; in the dollar campaign they add up to the rate on the staked dollars at the present price, rounded once per day.", "quantifier": "all genesis states, all histories, all campaigns and levels", "why_tests_cant": "The rounding error must be bounded for all rates and balances, and the tables must still follow the settings after any history.", "anchors": ["pallets/credit/src/lib.rs::_update_credit_setting", "pallets/credit/src/lib.rs::calc_usdt_daily_poc_reward", "pallets/credit/src/lib.rs::calc_normal_daily_poc_reward"]}
{"id": "C165", "title": "Channels keep their guarantees among the other pallets", "statement": "In the whole chain, with mints, slashes, transfers, reserves and rewards by every other pallet going on, a client's recorded total stays the sum of its channels, a channel's balance stays what was put in less what was paid out, no voucher is paid twice, the vouchers of a channel are paid in the order of their sessions without gaps, and every payment needs a voucher signed by the client.", "quantifier": "all genesis states, all histories of the whole chain that stay within u128, all clients and servers", "why_tests_cant": "A test of the micropayment pallet runs it alone; here all pallets change the same balances between its calls.", "anchors": ["pallets/micropayment/src/lib.rs::claim_payment", "pallets/micropayment/src/lib.rs::open_channel", "pallets/micropayment/src/lib.rs::close_channel", "pallets/micropayment/src/lib.rs::add_balance", "pallets/micropayment/src/lib.rs::deposit_into_account", "runtime/src/lib.rs::pallet_micropayment::Config for Runtime"]}
{"id": "C166", "title": "Devices and reward addresses keep their guarantees among the other pallets", "statement": "In the whole chain the server lists by country and region hold exactly the registered servers, in order; the time of an account's first heartbeat is kept for ever and the accounts that sent one are listed once; an EVM address stays with the account it was bound to, and was bound at genesis or by that account with an operator's signature.", "quantifier": "all genesis states, all histories of the whole chain, all accounts, countries and addresses", "why_tests_cant": "Lists, counters and maps must agree after any interleaving with the other pallets.", "anchors": ["pallets/deeper-node/src/lib.rs::register_device", "pallets/deeper-node/src/lib.rs::unregister_device", "pallets/deeper-node/src/lib.rs::register_server", "pallets/deeper-node/src/lib.rs::unregister_server", "pallets/deeper-node/src/lib.rs::im_online", "pallets/deeper-node/src/lib.rs::reward_mapping"]}
{"id": "C167", "title": "The money of a channel can be had", "statement": "In every state of the whole chain: a client that is alive and not frozen below its debts gets the rest of its channel, less the fee, once the channel has expired or the server has been silent for an era; a server that is alive is paid, less the fee, for the next signed voucher that the channel covers; nobody else's account but the treasury's changes.", "quantifier": "all genesis states, all histories of the whole chain that stay within u128, all channels, vouchers and blocks", "why_tests_cant": "That a call succeeds in every reachable state cannot be sampled.", "anchors": ["pallets/micropayment/src/lib.rs::close_channel", "pallets/micropayment/src/lib.rs::claim_payment", "pallets/micropayment/src/lib.rs::deposit_into_account", "pallets/deeper-node/src/lib.rs::get_eras_offline"]}
{"id": "C168", "title": "A signature of the operator is good for one action", "statement": "An operator's signature for an account authorises one accepted action of that account.", "quantifier": "all histories of the whole chain, all signatures", "why_tests_cant": "The same signature is checked by three calls of two pallets, of which one keeps a nonce; a test uses one call.", "anchors": ["pallets/deeper-node/src/lib.rs::reward_mapping", "pallets/deeper-node/src/lib.rs::report_credit_proof", "pallets/credit-accumulation/src/lib.rs::add_credit_by_traffic", "pallets/credit-accumulation/src/lib.rs::do_verify", "pallets/credit-accumulation/src/lib.rs::verify_atomos_signature", "pallets/credit-accumulation/src/lib.rs::verify_atomos_new_signature"]}
{"id": "C169", "title": "No call brings down a block", "statement": "Whatever calls are made, with whatever arguments, in whatever reachable state, a call ends with success or an error; it never panics, which would abort the execution of the block it is in.", "quantifier": "all calls of the nine pallets, all origins, all histories of the whole chain", "why_tests_cant": "A panic in a dispatchable shows in a test only if the test happens to build the state and the argument that meet the unwrap or the division.", "anchors": ["pallets/adsc/src/lib.rs::swap_adsc_to_dpr", "pallets/tips/src/lib.rs::close_tip", "pallets/tips/src/lib.rs::payout_tip", "pallets/staking/src/lib.rs::force_undelegate", "pallets/credit/src/lib.rs::slash_credit", "pallets/credit/src/lib.rs::update_credit_history", "pallets/credit/src/lib.rs::evm_update_credit"]}
{"id": "C170", "title": "The migration of tips keeps every tip", "statement": "The storage migration of the tips pallet turns each stored tip of the old form into one of the new form with the same reason, beneficiary, closing block and votes; a finder keeps deposit and fee, a tip without finder gets the zero account, no deposit and no fee; no entry appears or disappears.", "quantifier": "all storages with any number of tips of any size", "why_tests_cant": "The migration runs once on the live chain's bytes, with vectors and compact lengths of all sizes.", "anchors": ["pallets/tips/src/lib.rs::migrate_retract_tip_for_tip_new", "pallets/tips/src/lib.rs::OldOpenTip", "pallets/tips/src/lib.rs::OpenTip"]}
{"id": "C171", "title": "A tip survives further runs of the migration", "statement": "Running the migration again leaves migrated tips as they are.", "quantifier": "all storages, all numbers of runs", "why_tests_cant": "Whether bytes of the new form read as the old form depends on every byte of the tip.", "anchors": ["pallets/tips/src/lib.rs::migrate_retract_tip_for_tip_new", "pallets/tips/src/lib.rs::OldOpenTip", "pallets/tips/src/lib.rs::OpenTip"]}
{"id": "C172", "title": "Money leaves an account only for a listed price", "statement": "What an account owns (free and reserved balance, money in its channels) falls in one call or hook by at most the price on a fixed list: transfers, burning, buying credit or a level, burnt or slashed stake, vouchers and closing fees, moves by the bridge and by democracy, tips and swaps from the accounts that pay them; the rest of a balance that falls below the existential deposit may go too. A call an account did not sign takes nothing from an account that is no stash, has no channel, finds no open tip and pays no pool, except moves by an admin of the bridge or by democracy.", "quantifier": "all genesis states, all histories of the whole chain that stay within u128, all calls, hooks and accounts", "why_tests_cant": "That no other call of any pallet debits an account is a statement about every call in every state.", "anchors": ["pallets/micropayment/src/lib.rs::close_channel", "pallets/micropayment/src/lib.rs::claim_payment", "pallets/micropayment/src/lib.rs::deposit_into_account", "pallets/operation/src/lib.rs::burn_for_ezc", "pallets/operation/src/lib.rs::bridge_other_to_deeper", "pallets/operation/src/lib.rs::bridge_deeper_to_other", "pallets/operation/src/lib.rs::unlock_from_democracy", "pallets/staking/src/lib.rs::burn_from_stake", "pallets/staking/src/lib.rs::staking_delegate", "pallets/tips/src/lib.rs::close_tip", "pallets/tips/src/lib.rs::slash_tip", "pallets/adsc/src/lib.rs::swap_adsc_to_dpr", "pallets/credit/src/lib.rs::burn_for_add_credit"]}
{"id": "C173", "title": "A stake can be had back", "statement": "A controller may begin to leave at any time: it directs rewards elsewhere and unbonds everything. If stash and controller then do nothing until the bonding duration is over, one withdrawal dissolves the stake, removes the lock, and pays out all of it except what was slashed in between.", "quantifier": "all genesis states, all histories before and after, all amounts, any number of slashes", "why_tests_cant": "The wait is hundreds of eras in which anything else may happen; a test runs a handful of steps.", "anchors": ["pallets/staking/src/lib.rs::unbond", "pallets/staking/src/lib.rs::withdraw_unbonded", "pallets/staking/src/lib.rs::set_payee", "pallets/staking/src/lib.rs::kill_stash", "pallets/staking/src/lib.rs::update_ledger", "pallets/staking/src/lib.rs::make_validator_payout", "pallets/staking/src/slashing.rs::do_slash", "pallets/staking/src/slashing.rs::clear_stash_metadata"]}
{"id": "C174", "title": "An ordinary account changes only its own affairs", "statement": "A call signed by an account that holds no privilege leaves everything the chain keeps about any other account besides its money as it was: credit, history, purchases, device, heartbeat, addresses, delegation, prepayments, referrals, stake, payee, candidacy, release schedule, ADSC stake and reserves. The exceptions are the controller that manages a stake, removing a stake whose account has only the existential deposit left, and closing a tip in credits that the elected members have declared.", "quantifier": "all genesis states, all histories of the whole chain that stay within u128, all further calls by any number of ordinary accounts", "why_tests_cant": "That no call of any pallet writes under a key other than its signer's is a statement about every call in every state.", "anchors": ["pallets/staking/src/lib.rs::bond", "pallets/staking/src/lib.rs::bond_extra", "pallets/staking/src/lib.rs::unbond", "pallets/staking/src/lib.rs::set_controller", "pallets/staking/src/lib.rs::reap_stash", "pallets/staking/src/lib.rs::delegate", "pallets/staking/src/lib.rs::undelegate", "pallets/staking/src/lib.rs::staking_delegate", "pallets/credit/src/lib.rs::burn_for_add_credit", "pallets/credit/src/lib.rs::burn_nft", "pallets/deeper-node/src/lib.rs::register_device", "pallets/deeper-node/src/lib.rs::im_online", "pallets/deeper-node/src/lib.rs::reward_mapping", "pallets/credit-accumulation/src/lib.rs::add_credit_by_traffic", "pallets/operation/src/lib.rs::burn_for_ezc", "pallets/adsc/src/lib.rs::swap_adsc_to_dpr", "pallets/tips/src/lib.rs::close_credit_tip"]}
{"id": "C175", "title": "Others cannot keep an account from acting", "statement": "A call that an account can make it can still make after calls of other ordinary accounts that are not on its behalf, as long as its own money is the same.", "quantifier": "all genesis states, all histories, all calls of the account and any number of calls of others in between", "why_tests_cant": "Which checks of a call read state that others can write is a question about every pair of calls.", "anchors": ["pallets/staking/src/lib.rs::bond", "pallets/staking/src/lib.rs::set_controller", "pallets/staking/src/lib.rs::unbond", "pallets/staking/src/lib.rs::rebond", "pallets/staking/src/lib.rs::chill", "pallets/staking/src/lib.rs::set_payee", "pallets/staking/src/lib.rs::undelegate", "pallets/deeper-node/src/lib.rs::reward_mapping", "pallets/deeper-node/src/lib.rs::unregister_device", "pallets/deeper-node/src/lib.rs::im_online", "pallets/deeper-node/src/lib.rs::update_server"]}
{"id": "C176", "title": "inspect shows the block it is asked for", "statement": "inspect block given a number in decimal shows the block of that number, given 64 hex digits of either case the block of that hash, and given 0x and an encoded block that block. Nothing but digits, with zeros or a plus in front, is read as a number; nothing but the digits of the hash, apart from blanks and 0x, as a hash.", "quantifier": "all texts, numbers, hashes and encodings, all chains", "why_tests_cant": "The three readings overlap (digits are hex digits), so which is meant is a question about every text.", "anchors": ["inspect/src/lib.rs::BlockAddress", "inspect/src/lib.rs::get_block", "inspect/src/command.rs::InspectSubCmd"]}
{"id": "C177", "title": "inspect shows the extrinsic it is asked for", "statement": "inspect extrinsic given a block by number or hash, a colon and an index shows the extrinsic at that place of that block or none, and given 0x and bytes shows the extrinsic they encode.", "quantifier": "all texts, blocks, indices and encodings, all chains", "why_tests_cant": "The text is first tried as bytes, then split; that the first reading never wins is a question about every text.", "anchors": ["inspect/src/lib.rs::ExtrinsicAddress", "inspect/src/lib.rs::extrinsic", "inspect/src/command.rs::InspectSubCmd"]}
{"id": "C178", "title": "inspect accepts every separator it splits at", "statement": "Block and index may be separated by a colon, a dot or a space.", "quantifier": "all texts, blocks and indices, all chains", "why_tests_cant": "One test of the crate reads one address with a space (as bytes); which reading wins is a question about every text.", "anchors": ["inspect/src/lib.rs::ExtrinsicAddress", "inspect/src/lib.rs::extrinsic"]}
{"id": "C179", "title": "A signed transaction takes effect at most once", "statement": "A transaction that took effect is refused afterwards, and so is every other transaction of the account with the same nonce; transactions of one account take effect in the order of their nonces.", "quantifier": "all chains, all transactions, all histories of any length in between", "why_tests_cant": "A replay may come at any time, after any history; no test can run them all.", "anchors": ["runtime/src/lib.rs::SignedExtra", "runtime/src/lib.rs::ExistentialDeposit"]}
{"id": "C180", "title": "A signature serves only what was signed", "statement": "A transaction is taken only with the call, nonce, tip and era that were signed, only on the chain whose genesis block was signed, only under the signed versions of the runtime, and, if it is mortal, only within its period of the block it was signed after, which must be a block of this chain.", "quantifier": "all chains with distinct block hashes, all transactions whose signature proves one payload, all histories", "why_tests_cant": "Which later blocks accept a transaction depends on period, phase and the hashes kept; a test tries a few numbers.", "anchors": ["runtime/src/lib.rs::SignedExtra", "runtime/src/lib.rs::BlockHashCount"]}
{"id": "C181", "title": "What an offchain worker signs stays valid", "statement": "create_transaction succeeds in every block, and the transaction it makes is taken in that block and in each of the next 2046 if versions and nonce are the same and the fee can be paid.", "quantifier": "all chains, all histories before and after, all accounts, calls and nonces", "why_tests_cant": "Period, phase and the number of hashes kept must fit together for every block number.", "anchors": ["runtime/src/lib.rs::create_transaction", "runtime/src/lib.rs::SignedExtra", "runtime/src/lib.rs::BlockHashCount"]}
{"id": "C182", "title": "The work of a block is limited", "statement": "The hooks that serve all delegators, ADSC stakers or release schedules look in one block at no more of them than the quota set for a block (DelegatorPayoutsPerBlock, BlocklyRewardNum, the single maximum), and the quota of delegators suffices to serve all of them in an era.", "quantifier": "all states, all numbers of delegators, stakers and schedules", "why_tests_cant": "Tests use a handful of accounts; what matters is how the work grows with their number.", "anchors": ["pallets/staking/src/lib.rs::on_initialize", "pallets/staking/src/lib.rs::pay_delegators", "pallets/adsc/src/lib.rs::on_initialize", "pallets/adsc/src/lib.rs::adsc_reward", "pallets/operation/src/lib.rs::release_staking_balance"]}
{"id": "C183", "title": "Hooks report the weight of their work", "statement": "The weight a hook reports names at least one database read for each delegator, ADSC staker or release schedule that it looks at.", "quantifier": "all states, all numbers of delegators, stakers and schedules", "why_tests_cant": "Weights are not observed by the tests, which run hooks without a limit.", "anchors": ["pallets/staking/src/lib.rs::on_initialize", "pallets/staking/src/lib.rs::pay_delegators", "pallets/staking/src/lib.rs::pay_delegator", "pallets/adsc/src/lib.rs::on_initialize", "pallets/adsc/src/lib.rs::adsc_reward", "pallets/operation/src/lib.rs::on_finalize", "pallets/operation/src/lib.rs::release_staking_balance"]}
{"id": "C184", "title": "The proxies of an account", "statement": "An account has at most 32 proxies, none named twice for the same kind and delay and never itself; they change only through calls that the account itself executes or by its creation as a pure account; adding succeeds exactly when allowed and adds that entry only, removing exactly when it is there and removes that entry only.", "quantifier": "all histories, all nested calls, all derived, pure and multisig addresses", "why_tests_cant": "Calls reach pallet_proxy through batches, proxies, multisigs, sudo and recovery nested without limit.", "anchors": ["runtime/src/lib.rs::ProxyType", "runtime/src/lib.rs::MaxProxies"]}
{"id": "C185", "title": "A proxy can use the kind it was given", "statement": "An account named as an immediate proxy for kind t can make its principal execute any unpaused call t is for, whether or not it names the kind.", "quantifier": "all histories, all further proxies of the same delegate, all calls", "why_tests_cant": "Which entry counts depends on the declared order of the kinds and on everything else the delegate was named for.", "anchors": ["runtime/src/lib.rs::ProxyType", "runtime/src/lib.rs::InstanceFilter", "runtime/src/lib.rs::MaxProxies"]}
{"id": "C186", "title": "What reporters of an offence get", "statement": "A report promises its reporters together at most half of the reward fraction of what the offence costs the offender's own stake; when the slash is applied they share this evenly, or all that was taken if that is less, the treasury gets the rest to the last unit, and nobody else gains.", "quantifier": "all histories, reports, fractions and lists of reporters, all balances", "why_tests_cant": "The shares depend on earlier slashes of the same span, on rounding and on what is left of the stake when the slash is applied eras later.", "anchors": ["pallets/staking/src/slashing.rs::slash_validator", "pallets/staking/src/slashing.rs::apply_slash", "pallets/staking/src/slashing.rs::pay_reporters", "pallets/staking/src/slashing.rs::REWARD_F1"]}
{"id": "C187", "title": "Only the ADSC pallet makes ADSC", "statement": "ADSC comes into being only as a reward or as a bridge transfer by an admin; nobody's ADSC falls but by its own transfer or swap or an admin's bridge transfer, and nobody can freeze it, whatever accounts do with pallet_assets.", "quantifier": "all histories of ADSC calls, blocks, upgrades and calls of pallet_assets by any account", "why_tests_cant": "The asset belongs to whoever created it; the tests start from a chain on which the pallet did.", "anchors": ["pallets/adsc/src/lib.rs::on_runtime_upgrade", "pallets/adsc/src/lib.rs::swap_adsc_to_dpr", "pallets/adsc/src/lib.rs::do_bridge_mint_adsc", "runtime/src/lib.rs::AssetDeposit", "runtime/src/lib.rs::CreateOrigin", "runtime/src/lib.rs::AdscId"]}
{"id": "C188", "title": "A server is listed for the time it asked for", "statement": "The last block recorded for a device is the one its accepted calls asked for, at most the longest allowed time ahead, and a device is listed as a server exactly until that block.", "quantifier": "all histories of register, update and unregister calls of all accounts at any blocks", "why_tests_cant": "The tests check the record after one call; nothing looks at the lists after the time has passed.", "anchors": ["pallets/deeper-node/src/lib.rs::register_server", "pallets/deeper-node/src/lib.rs::update_server", "pallets/deeper-node/src/lib.rs::try_add_server", "pallets/deeper-node/src/lib.rs::try_remove_server"]}
{"id": "C189", "title": "What a credit record says besides its score", "statement": "An account's campaign, initial level, rank, number of referees and number of paid eras change only when Root or a credit admin writes the record, when it begins (ten years, the level of its score), when the stake is given back (it begins anew), or when a claim moves it to the campaign named for its own (ten years, or half a year more of the same); a record is never given another number of paid eras than ten years, or that of genesis, and half years more.", "quantifier": "all histories of calls and entry points of pallet credit, all accounts, campaigns and switches", "why_tests_cant": "Every path that updates a score rebuilds the record; the tests look at one path each.", "anchors": ["pallets/credit/src/lib.rs::_update_credit", "pallets/credit/src/lib.rs::get_reward", "pallets/credit/src/lib.rs::unstaking_slash_credit", "pallets/credit/src/lib.rs::add_or_update_credit", "pallets/credit/src/lib.rs::DEFAULT_REWARD_ERAS"]}
{"id": "C190", "title": "The pool's record tells what the pool holds", "statement": "TotalPoolDpr is the sum of what was put into the ADSC pool, a hundred million DPR once and what Root added, and is what the pool holds.", "quantifier": "all histories of ADSC calls, blocks and upgrades", "why_tests_cant": "The record and the balance are written at different places; the tests compare them after one call.", "anchors": ["pallets/adsc/src/lib.rs::do_add_pool_dpr_adsc", "pallets/adsc/src/lib.rs::on_runtime_upgrade", "pallets/adsc/src/lib.rs::swap_adsc_to_dpr"]}
{"id": "C191", "title": "Stakes in dollars and stakes in DPR are kept apart", "statement": "The dollars recorded for an account are those credit admins entered for it since they last cleared them; they are entered only for accounts without a record or of the dollar campaign, an account of the dollar campaign buys no levels with DPR, and no dollars are on record for a stake that was given back.", "quantifier": "all histories of the joined chain, all accounts, amounts and campaigns", "why_tests_cant": "Three pallets' calls write the record, the campaign and the stake at different places; the tests check each alone.", "anchors": ["pallets/credit/src/lib.rs::set_staking_balance", "pallets/credit/src/lib.rs::unset_staking_balance", "pallets/credit/src/lib.rs::get_credit_balance", "pallets/credit/src/lib.rs::is_dpr_campaign", "pallets/credit/src/lib.rs::unstaking_slash_credit", "pallets/staking/src/lib.rs::usdt_staking_delegate", "pallets/staking/src/lib.rs::staking_delegate"]}
{"id": "C192", "title": "Referees are limited and paid for", "statement": "A credit record names at most as many referees as the setting of its campaign and of its first level allows, and each of them earns the account the reward per referee for every paid era.", "quantifier": "all histories of calls and entry points of pallet credit, all settings, campaigns and accounts", "why_tests_cant": "The limit is checked where records are written, the setting can change afterwards; the tests use settings without referees.", "anchors": ["pallets/credit/src/lib.rs::check_credit_data", "pallets/credit/src/lib.rs::_update_credit_setting", "pallets/credit/src/lib.rs::calc_normal_daily_poc_reward", "pallets/credit/src/lib.rs::get_reward"]}
{"id": "C193", "title": "What a referer gets", "statement": "When a delegator is paid, its referer gets 5, 6, 7.5, 9 or 12 per cent of what the delegator earned, by the number of accounts it referred, to the nearest unit and as long as the pool lasts; no referer is paid otherwise.", "quantifier": "all histories of the staking pallet with fewer than 2^32 referrals, all rewards, pools and numbers of referees", "why_tests_cant": "The share depends on a counter kept by other calls and on what earlier delegators of the block left in the pool; the tests pay one referer with one referee.", "anchors": ["pallets/staking/src/lib.rs::pay_referer", "pallets/staking/src/lib.rs::get_referel_bonus_rate", "pallets/staking/src/lib.rs::pay_delegators", "pallets/staking/src/lib.rs::set_user_referer"]}
{"id": "C194", "title": "Who is on the black list earns nothing", "statement": "Until the era named in the black list is over, an account is paid no rewards from the mining pool in any block.", "quantifier": "all states, eras and accounts", "why_tests_cant": "The list is looked at in one of several functions that pay; the tests check that one.", "anchors": ["pallets/staking/src/lib.rs::pay_delegator", "pallets/staking/src/lib.rs::pay_referer", "pallets/staking/src/lib.rs::add_account_to_blacklist"]}
{"id": "C195", "title": "Each privilege reaches one part of the affairs of others", "statement": "Credit admins change the credit, delegations, referrals and ADSC stakes of other accounts, release setters their credit and release schedules, device admins who is in maintenance, black list admins the black list, locker members what is reserved, and contracts with the privilege for it the score of the account bound to the address they name; beyond that no privilege lets an account change what the chain keeps about another.", "quantifier": "all histories of the whole chain, all calls, signers, privileges and accounts", "why_tests_cant": "Which call checks which privilege and what it then writes is spread over eight pallets; the tests try one officer per call and look at one value.", "anchors": ["pallets/user-privileges/src/lib.rs::set_user_privilege", "pallets/credit/src/lib.rs::set_maintain_device", "pallets/credit/src/lib.rs::evm_update_credit", "pallets/credit/src/lib.rs::unstaking_slash_credit", "pallets/staking/src/lib.rs::add_account_to_blacklist", "pallets/staking/src/lib.rs::force_unstaking_delegate", "pallets/operation/src/lib.rs::unstaking_release"]}
{"id": "C196", "title": "Levels can be paid for in parts", "statement": "Going to a credit level in two steps costs as much and gives the same record as going there at once, and dollars entered in two parts give the level they give entered at once.", "quantifier": "all states, accounts, price lists of at most nine levels, amounts and levels", "why_tests_cant": "Compares three runs for every price list and every way to divide an amount; the tests buy one level from one starting point.", "anchors": ["pallets/staking/src/lib.rs::do_staking_delegate", "pallets/staking/src/lib.rs::do_usdt_staking_delegate", "pallets/credit/src/lib.rs::set_staking_balance", "pallets/credit/src/lib.rs::add_or_update_credit"]}
{"id": "C197", "title": "The reporters of one slashing span share its reward", "statement": "All reports about one slashing span of a stash together promise their reporters at most the reward fraction of what they take from the stash; a report worse than those of its era takes what the span has not paid yet and promises half of what is left of the reward fraction; no step changes the fraction.", "quantifier": "all histories in which the stash is not dissolved, all spans, reports, exposures below 2^128 and fractions of at most one", "why_tests_cant": "The share of a report depends on every earlier report about the same span; the tests pay one or two reports.", "anchors": ["pallets/staking/src/slashing.rs::compare_and_update_span_slash", "pallets/staking/src/slashing.rs::compute_slash", "pallets/staking/src/slashing.rs::pay_reporters"]}
{"id": "C198", "title": "Compensations keep to the limits on payments", "statement": "A release setter's compensation succeeds exactly if it asks for at most the limit on single payments and, with what has been released today, for at most the daily limit; all that is released and compensated on one day is within the daily limit; nobody else is paid.", "quantifier": "all histories of the whole chain, all origins, accounts and amounts", "why_tests_cant": "The limits and the record of the day are kept by another pallet than the one that pays; the tests of staking answer the question about the limit with a constant.", "anchors": ["pallets/staking/src/lib.rs::difference_compensation", "pallets/operation/src/lib.rs::is_single_max_limit", "pallets/operation/src/lib.rs::set_release_limit_parameter"]}
{"id": "C199", "title": "The history of eras is as deep as it is said to be", "statement": "While an era is one of those from the current era less the history depth to the current era, the record of its first session, validators, exposures, stake and, once it is over, reward points stays as written; nothing is kept of earlier eras; every planned era gets a record.", "quantifier": "all histories of the staking pallet, all history depths below 2^32, all eras", "why_tests_cant": "Needs every order of planned eras and changes of the depth; the tests look at a few eras with the default depth.", "anchors": ["pallets/staking/src/lib.rs::set_history_depth", "pallets/staking/src/lib.rs::new_era", "pallets/staking/src/lib.rs::clear_era_information", "pallets/staking/src/lib.rs::note_author"]}
{"id": "C200", "title": "Staking respects locks set by others", "statement": "Whatever the staking pallet does - bonding, payments, slashes, burning stake, withdrawing, unstaking by force - what is frozen of an account is the greater of the staking lock and the greatest lock set by others, and the account stays; neither lock ever gives way to the other.", "quantifier": "all histories of the staking pallet, all accounts that may not be reaped and locks of others, whatever else happens to balances in between", "why_tests_cant": "The lock is written again in nine places and taken away in four; the tests never put a second lock on a stash.", "anchors": ["pallets/staking/src/lib.rs::update_ledger", "pallets/staking/src/lib.rs::withdraw_unbonded", "pallets/staking/src/lib.rs::force_unstake", "pallets/staking/src/lib.rs::reap_stash", "pallets/staking/src/lib.rs::validator_burn", "pallets/staking/src/slashing.rs::do_slash"]}
{"id": "C201", "title": "A stake is covered by the money of its stash", "statement": "What a ledger says is at stake, active and unlocking together, is never more than the free and reserved money of its stash.", "quantifier": "all accounts that are not reaped, all histories of the staking pallet with whatever else happens to balances in between", "why_tests_cant": "Ledgers and balances are changed separately by bonding, payments, slashes and burning, and balances by every other pallet; the tests look at both after single calls.", "anchors": ["pallets/staking/src/lib.rs::bond", "pallets/staking/src/lib.rs::bond_extra", "pallets/staking/src/lib.rs::validator_payout", "pallets/staking/src/lib.rs::withdraw_unbonded", "pallets/staking/src/lib.rs::validator_burn", "pallets/staking/src/slashing.rs::do_slash", "pallets/tips/src/lib.rs::slash_tip"]}
{"id": "C202", "title": "A cancelled slash leaves no trace", "statement": "Where slashes are deferred, a report by itself takes nothing from anybody, and if Root cancels the slashes it has added before they take effect, everything goes on as if there had been no report.", "quantifier": "all states, all reports, all numbers of validators reported, with any other slashes waiting", "why_tests_cant": "The effects of a report are spread over spans, records per era, the set of validators and the queue; the tests look at what is left in the queue.", "anchors": ["pallets/staking/src/lib.rs::cancel_deferred_slash", "pallets/staking/src/lib.rs::on_offence", "pallets/staking/src/slashing.rs::compute_slash", "pallets/staking/src/slashing.rs::kick_out_if_recent"]}
{"id": "C203", "title": "Enough validators are elected", "statement": "An election picks all that stand or as many of them as validators are asked for; no set of validators is elected that is empty or smaller than the minimum.", "quantifier": "all histories of the staking pallet, all sets of candidates and changes of the two numbers by Root", "why_tests_cant": "Needs every order of changes of both numbers and elections; the tests elect with numbers that fit each other.", "anchors": ["pallets/staking/src/lib.rs::elect", "pallets/staking/src/lib.rs::set_validator_count", "pallets/staking/src/lib.rs::increase_validator_count", "pallets/staking/src/lib.rs::scale_validator_count", "pallets/staking/src/lib.rs::set_minimum_validator_count"]}
{"id": "C204", "title": "Invulnerable validators are not slashed", "statement": "While a validator is on the list of invulnerables, reports of offences neither take from its stake, nor announce a slash, nor end its candidacy, and nothing is taken from it by slashes.", "quantifier": "all histories of the staking pallet, all reports, alone or with other validators, deferred or not", "why_tests_cant": "A slash goes through a report, a queue and a later era; the tests report an invulnerable validator once and look at its balance.", "anchors": ["pallets/staking/src/lib.rs::set_invulnerables", "pallets/staking/src/lib.rs::on_offence", "pallets/staking/src/slashing.rs::compute_slash", "pallets/staking/src/slashing.rs::apply_slash"]}
{"id": "C205", "title": "Whoever stands gets its turn", "statement": "A validator that stands at all elections is elected as soon as more seats have been given than there are others who stand.", "quantifier": "all histories of the staking pallet, all numbers of seats and of candidates, whatever else happens between the elections", "why_tests_cant": "A claim about all sequences of elections and delegations; the tests hold one or two elections.", "anchors": ["pallets/staking/src/lib.rs::elect", "pallets/staking/src/lib.rs::compare", "pallets/staking/src/lib.rs::do_delegate", "pallets/staking/src/lib.rs::_undelegate"]}
