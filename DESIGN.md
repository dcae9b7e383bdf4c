# Formal model of deeper-chain

Source: /repo (rust, Substrate polkadot-v1.1.0 pallets), read as text. Model and proofs: Coq 8.16.1 in `rocq/theories`.

## Layout

* `Base.v`: result type (`ROk`, `RErr`, `RPanic`), fixed-width wrap-around, Percent/Perbill arithmetic, sums over finite maps.
* `Balances.v`: the part of `pallet_balances` that the pallets call (environment, trusted).
* `Model_X.v`: pallet X, function by function, each definition citing file and lines. No proofs.
* `Spec_X.v`: the vocabulary of the property statements of pallet X (sums, histories, events, medians ...), written
  independently of the model's helper functions.
* `Proofs_X.v`: lemmas and invariants.
* `Props_X.v`: only the property theorems, an `Example` beside each showing the hypotheses can be met, and `Print Assumptions`.

## Conventions

* A dispatchable is `step : state -> call -> state * outcome`. Dispatchables are transactional in this Substrate
  version: on `Err` the state is the state before the call. A panic aborts the call: state unchanged, outcome `RPanic`.
  Hooks and internal functions called by other pallets are not transactional and are modelled without rollback.
* Release profile has no overflow checks (Cargo.toml: only the `testnet` profile enables them), so plain `+`, `-`
  and `as` casts on machine integers wrap; wrap-around is modelled where it can change an observable result,
  and stated in the comment of the definition where it is left out.
* Accounts, hashes and addresses are `N`. Storage maps are stdpp `gmap`. Hash iteration order of storage is
  a parameter (an injective key function).
* Signature verification is an arbitrary boolean function (a parameter of every theorem that uses it).
* Answers of other pallets (credit in staking, session in staking, locks in operation ...) are arbitrary values given
  with each step, so the theorems hold for all of them.
* A property that is false of the code is stated in full as a `Definition ..._claim` or inside `..._refuted`, refuted by a
  computed witness, and followed by the part that does hold (`..._partial` or an exact description of what happens).
  Its status in MANIFEST.json is `partial`.

## Properties

How each is proved, and by which theorems. "False of the code" means that a witness is machine-checked; see Findings.

| id | property | status | method | theorems |
|----|----------|--------|--------|----------|
| C01 | Channel money is conserved | proved | ledger of free balances + channels + burnt + dropped; invariant by induction over `step` | C01_conservation, C01_loss_bound |
| C02 | Total channel balance matches the open channels | proved | invariant: total_of c = sum over channels with client c; clamp shown harmless | C02_totals |
| C03 | A voucher is paid at most once | proved | history semantics with the list of paid vouchers; invariant on (nonce, session, paid) counters with u32/u64 wrap | C03_no_replay |
| C04 | Payments need the client's signature over exactly that payment | proved | inversion of `step` on claim events; signature verification is an oracle parameter | C04_signature_needed |
| C05 | Claims in one channel use consecutive sessions | proved | invariant on the sequence of paid events since the last opening | C05_consecutive_sessions |
| C06 | Who can close a channel and when | proved | frame theorem: case analysis over all calls | C06_channel_authority, C06_stored_ends |
| C07 | Claims are covered by what the client locked | proved | history with per-channel ghost deposit/paid sums; induction | C07_books |
| C08 | A claim above the balance pays the rest and closes | false of the code | false: the branch pays and then returns an error, and dispatch rolls back; exact behaviour proved instead | C08_overclaim_refuted, C08_overclaim_is_noop |
| C09 | Closing refunds the client | proved | exact effect theorem of the close call | C09_close_effect, C09_close_succeeds, C09_claim_effect, C09_client_close_effect, C09_client_close_succeeds, C09_claim_succeeds, C09_close_expired_effect |
| C10 | Voucher bytes are unambiguous | proved | byte-list encoding, injectivity by length and digit uniqueness | C10_voucher_bytes_injective |
| C11 | Server lists agree with the registered servers | proved | invariant over histories linking maps; region table is a parameter function | C11_server_lists |
| C12 | Server lists are sorted and free of duplicates | proved | StronglySorted invariant; binary search refined to membership | C12_lists_sorted |
| C13 | Device registration deposit | proved | invariant: held deposit of account = deposit iff device present | C13_one_deposit, C13_register_moves, C13_unregister_refunds |
| C14 | Onboard record is permanent and unique | proved | invariant over histories with first-heartbeat ghost | C14_onboard_records, C14_onboard_permanent |
| C15 | EVM address binding is exclusive | proved | invariant D2E ⊆ E2D inverse; permanence of E2D | C15_binding_permanent, C15_maps_back, C15_binding_authorised |
| C16 | Unbinding an EVM address frees it | false of the code | false: stale reverse entry after a remap; what stays true proved | C16_unbinding_refuted, C16_old_address_dead_partial |
| C17 | A heartbeat resets the offline counter | proved | arithmetic + history | C17_eras_offline, C17_zero_after_heartbeat, C17_monotone |
| C18 | Credit level always matches the score | proved | invariant over all entry points of the credit pallet | C18_levels |
| C19 | Credit history is ordered by era | proved | invariant over histories with a monotone block number | C19_history_ordered |
| C20 | Rewards use the credit that was in force | proved | refinement of the index loop of get_credit_map to a per-era lookup and sum | C20_reward, C20_claims_add_up |
| C21 | A reward period is paid once | proved | invariant of the staking model: the periods handed to the credit pallet for a delegator are disjoint intervals; run induction | C21_disjoint |
| C22 | Slashing credit never underflows and never helps | proved | exact effect of slash_credit | C22_slash |
| C23 | Slashing a user without credit is harmless | false of the code | false: unwrap on a missing record; the panic is characterised exactly | C23_slash_without_credit_refuted, C23_slash_without_credit_partial |
| C24 | An offline slash is not undone | false of the code | false when the claim also switches the campaign; proved without a switch | C24_offline_slash_refuted, C24_offline_slash_partial |
| C25 | Price averages stay between the submitted prices | false of the code | average bounds; false when the sum wraps at 2^128; per-submission guard proved | C25_price_refuted, C25_price_partial, C25_submission |
| C26 | Burning for credit charges exactly the price | false of the code | false for 2^32 points and more (truncation); exact effect below | C26_burn_for_credit_refuted, C26_burn_for_credit_partial |
| C27 | Credit from burned NFTs is capped per address | false of the code | false when the running total wraps; invariant over histories below | C27_nft_cap_refuted, C27_nft_cap_partial |
| C28 | At most one traffic credit per interval | proved | invariant over histories with time | C28_traffic_interval, C28_traffic_one_point |
| C29 | Bonus never lowers the reward | proved | rounding arithmetic | C29_bonus_helps |
| C30 | A traffic proof is used once | proved | nonce invariant over histories | C30_nonces_count_up, C30_no_replay |
| C31 | Traffic proofs need the operator key | false of the code | exact acceptance condition; false for an unset key (counts as the all-zero key); byte injectivity | C31_operator_key_partial, C31_operator_key_refuted, C31_signed_bytes, C31_only_root_sets_keys |
| C32 | Privileges are a set | proved | refinement of the u64 masks to sets | C32_privileges_are_sets, C32_root_calls_succeed |
| C33 | Only the force origin grants privileges | proved | frame theorem over all calls | C33_force_origin |
| C34 | Privilege codec round-trips and rejects junk | proved | codec round trip over all words | C34_stored_words_roundtrip, C34_decode_rejects_junk, C34_word_is_its_members, C34_privilege_codec |
| C35 | Migration keeps every old privilege | false of the code | false: later steps overwrite earlier ones; exact result without overlap | C35_migration_refuted, C35_migration_partial |
| C36 | Credit precompile decodes strictly and respects call context | proved | byte-level model of execute; frame theorem | C36_needs, C36_effect, C36_query |
| C37 | Credit precompile reports failure | false of the code | false: the boolean result is ignored; characterisation of all silent cases | C37_silent_failure_refuted, C37_silent_failure_partial |
| C38 | Credit precompile is advertised | false of the code | false for address 1030; exact characterisation of the rest | C38_advertised_refuted, C38_advertised_partial |
| C39 | Each ADSC staker is paid at most once a day | proved | day model with key-ordered cursor; invariant | C39_once_a_day |
| C40 | An ADSC staker is paid for at most its period | proved | counter invariant over histories | C40_period, C40_added, C40_amount, C40_removal |
| C41 | ADSC halving | proved | halving invariant over histories | C41_halving |
| C42 | ADSC swap is exact and atomic | false of the code | exact effect; false at zero rates (panic) and at products beyond 2^128 | C42_swap_refuted, C42_swap_partial, C42_no_panic_partial |
| C43 | NFT stakes are exclusive | false of the code | false if the owner burns a staked NFT; bijection invariant otherwise | C43_exclusive_refuted, C43_exclusive_partial |
| C44 | A staking release never exceeds the promised total | false of the code | false after skipped days; bound on the excess; no excess while in time | C44_total_refuted, C44_total_partial, C44_in_time_partial |
| C45 | Release limits hold | proved | cumulative bound invariant | C45_single, C45_daily, C45_check |
| C46 | A release is paid at most once per day and account | proved | day-interval invariant | C46_once, C46_days |
| C47 | Bridge accounting | proved | sum invariant over histories | C47_moves_out, C47_moves_in, C47_counters, C47_pool |
| C48 | Bonded stash and controller stay paired | proved | inverse-maps invariant over histories | C48_paired |
| C49 | The ledger total is active plus unlocking | false of the code | ledger invariant over histories; the lock part is false after a slash of the whole stake | C49_total, C49_lock_refuted, C49_lock_partial |
| C50 | Unbonded money waits for the bonding duration | false of the code | chunk-era ghost accounts over histories; false because Root, reaping and burning do not wait | C50_waits_partial, C50_drop_partial, C50_refuted |
| C51 | Slashing takes what it says | proved | induction over chunk lists | C51_slash |
| C52 | Rebonding moves exactly the requested amount | proved | induction over chunk lists | C52_rebond |
| C53 | Election picks the longest waiting validators | proved | insertion sort and truncation: permutation, order and maximality lemmas | C53_election |
| C54 | Delegations are mirrored | proved | mirror invariant over histories | C54_mirror |
| C55 | Delegator counters are right | proved | cardinality invariant over histories | C55_counts |
| C56 | The mining pool is never overdrawn | false of the code | false by the rounding of validator shares; exact bound with the overdraft named | C56_refuted, C56_pool_partial |
| C57 | Each delegator is paid once per era | proved | cursor invariant over the blocks of an era, storage order as a parameter; liveness by counting blocks | C57_once, C57_reached |
| C58 | Referral counts are exact | proved | cardinality invariant over histories | C58_referrals |
| C59 | Cancelling deferred slashes removes exactly those named | proved | induction over index lists with shift | C59_cancel |
| C60 | Repeated offences in a span cost the maximum, not the sum | proved | run invariant relating span records, era marks and all reports ever made; the hypothesis that reports carry the era's exposure is about the caller (session history) | C60_booked, C60_max |
| C61 | Slashing spans partition the eras | proved | induction over end_span and prune; lookup agrees with membership; eras in the window keep their span under every step | C61_partition, C61_found, C61_settled |
| C62 | Tip payout is the median of the active tippers | false of the code | median of the filtered sorted list and its effect on balances; false as the payment may silently fail | C62_median, C62_paid_partial, C62_refuted |
| C63 | A tip needs a majority of tippers | false of the code | run invariant: a closing time stems from a declaration by half of the tippers; false as that may be a credit declaration | C63_partial, C63_coin, C63_refuted |
| C64 | Closing a ripe tip does not panic | false of the code | false: index into an empty list; panic characterised exactly | C64_partial, C64_refuted |
| C65 | Tip reasons and deposits stay consistent | proved | reason/tip maps and deposit invariant over histories | C65_reasons, C65_deposits, C65_release |
| C66 | Credit tips are capped | proved | bound on the award, and its effect in the credit model | C66_cap, C66_score |
| C67 | Closing returns the whole remaining balance | false of the code | false: the burn fee is taken from the refund; proved: nothing else is, up to dust of accounts below the existential deposit | C67_full_refund_refuted, C67_refund_partial |
| C68 | A channel can always be closed | false of the code | false: a dead client account with a small channel cannot be refunded; proved: the exact condition for a close to succeed | C68_close_always_possible_refuted, C68_close_partial |
| C69 | Opening and topping up lock exactly the amount | proved | exact effect and success condition | C69_open_effect, C69_open_succeeds, C69_add_effect, C69_add_succeeds |
| C70 | Credit proof content is authenticated | false of the code | false: the signature does not cover the content | C70_proof_content_refuted, C70_proof_signed_partial |
| C71 | Burn totals agree | proved | sum invariant over histories | C71_burn_totals |
| C72 | Unprivileged callers only touch their own credit | proved | frame theorem over all calls of an unprivileged signer | C72_unprivileged |
| C73 | Genesis campaign schedule | false of the code | block-by-block schedule; false for the runtime upgrade | C73_genesis_schedule_partial, C73_genesis_schedule_refuted |
| C74 | Unstaking takes back exactly the staked points | proved | exact effect over histories (ghost sum of staked points) | C74_unstaking |
| C75 | A privilege on credit is used only by its holder | false of the code | false for delegated calls; the other three call kinds proved | C75_delegated_privilege_refuted, C75_delegated_privilege_partial |
| C76 | Credit precompile honours the whole amount | false of the code | false: only the low 64 bits count; exact effect modulo 2^64 | C76_amount_truncated_refuted, C76_amount_truncated_partial |
| C77 | No ADSC staker is forgotten | proved | cursor induction over the blocks of a day | C77_everyone_served |
| C78 | ADSC rewards have a ceiling | proved | halving arithmetic: geometric sum over 73 steps, run induction | C78_reward_cap |
| C79 | ADSC held never exceeds ADSC issued | proved | supply invariant over histories; exact effect of bridge calls | C79_supply, C79_bridge |
| C80 | Only admins run the ADSC pallet | proved | frame theorem over all calls | C80_unprivileged, C80_root |
| C81 | Powers over releases, limits, locks and the bridge | proved | frame theorem over all calls and roles | C81_roles, C81_unprivileged |
| C82 | The operation pallet creates exactly what it announces | proved | money function over accounts; run induction against the event stream | C82_money, C82_totals |
| C83 | Burning for EZC is exact | proved | exact effect | C83_burn |
| C84 | Every due schedule is served | proved | cursor induction over the blocks of a day | C84_served |
| C85 | An accepted schedule is eventually paid | false of the code | false: a schedule whose due amount exceeds the single maximum is stuck; proved for all futures | C85_stuck, C85_recovery_refuted |
| C86 | Bridging out needs the owner's request | false of the code | false: a bridge admin alone moves money; what an admin must name | C86_consent_refuted, C86_admin_partial |
| C87 | Release totals equal the money paid | false of the code | false for dust to a new account; bound proved | C87_dust_refuted, C87_covered_partial |
| C88 | Only the owner moves a stake | proved | case analysis over all steps, with the listed powers | C88_authority |
| C89 | Lock calls act on the named accounts only | proved | exact effects and frames | C89_reserve, C89_remove, C89_unlock, C89_apply |
| C90 | Tip calls need the right caller | proved | frame theorem over all calls | C90_authority |
| C91 | Only publicly reported tips can be retracted | false of the code | false: tips opened by tip_new can be retracted too; opener and deposit proved | C91_partial, C91_refuted |
| C92 | Tips move no money but the payout and the deposit | proved | money function and per-account loss bound over all calls | C92_money, C92_loss |
| C93 | Staking moves no money but rewards, slashes, burns and purchases | proved | money function and per-account loss bound over all steps, run induction | C93_money, C93_run, C93_loss |
| C94 | Deferred slashes wait exactly the defer duration and are applied once | proved | exact effect of an era start on the queue; frame of every other step | C94_applied, C94_queued, C94_kept |
| C95 | At the end of an era every elected validator is paid by its share of points | proved | exact effect of the end of an era on balances, stakes and pool; rounding stated as nearest | C95_pay |
| C96 | Reward points count the blocks authored in the era | proved | run invariant counting authored blocks against the points map | C96_points |
| C97 | Nobody holds two roles and seats are limited | proved | invariant over all histories (sorted lists, roles, seats) | C97_roles |
| C98 | Reserved balances equal bonds and vote deposits | proved | invariant: the books of each account; trace of every bond to its submission | C98_reserved, C98_bonds |
| C99 | A signed call touches the caller's affairs only | proved | frame theorem over the signed calls | C99_own |
| C100 | Whoever stands can renounce and gets exactly the bond back | proved | exact effect from the invariant; the call always succeeds | C100_refund, C100_possible |
| C101 | An election takes exactly the losers' bonds | proved | exact effect of an election on every account | C101_outcome, C101_nothing |
| C102 | Seats go by the election's ranking and the best runner-up moves up | proved | exact effect of an election and of a replacement on the lists | C102_ranking, C102_replaced |
| C103 | The prime is the member with the highest Borda count | proved | saturating Borda count proved equal to a sum; run invariant for the prime | C103_borda, C103_member, C103_kept |
| C104 | The council consists of the elected members | false of the code | false: the members named at genesis are not announced; proved from the first change on | C104_partial, C104_change, C104_refuted |
| C105 | Seats are lost only by renouncing, by Root or in an election | proved | case analysis over all calls; exact effect of a removal | C105_origin, C105_seat, C105_removed |
| C106 | A vote stays until its voter or a cleanup removes it | proved | frame theorem over all steps; exact effect of the cleanup (fold induction) | C106_stay, C106_clean, C106_unvote |
| C107 | Voting stake is locked | false of the code | false for members named at genesis; proved for all other votes | C107_partial, C107_unlocked, C107_refuted |
| C108 | Elections are held exactly at the end of terms | proved | exact outcome of a block; run induction for the counter | C108_when, C108_rounds |
| C109 | Candidates have an email identity | proved | run induction tracing every role to its submission | C109_identity |
| C110 | No more candidates than MaxCandidates | false of the code | false: one more is accepted; the bound max + 1 is proved | C110_partial, C110_refuted |
| C111 | Voters beyond MaxVoters are ignored | false of the code | false: no election succeeds while there are more voters; proved: exactly this, and up to the limit all count | C111_partial, C111_refuted |
| C112 | After a removal an election is held only if no runner-up moves up | false of the code | false: the election is held in either case; proved: removal with election is removal, then an election | C112_partial, C112_refuted |
| C113 | Duplicate votes are ignored | false of the code | false: the prime counts repetitions; proved when no ballot repeats a name | C113_partial, C113_refuted |
| C114 | Elections destroy exactly the money their events report | proved | money function over all calls and blocks | C114_money |
| C115 | When a vote is accepted and what it does | proved | equivalence and exact effect | C115_vote |
| C116 | When a candidacy is accepted and what it does | proved | equivalence and exact effect | C116_submit |
| C117 | Who stands as a validator and who is paid for it | proved | invariant over all steps; exact cause of every change | C117_bonded, C117_stands, C117_payee, C117_kicked |
| C118 | Dissolving a stake needs the number of spans and leaves nothing behind | proved | equivalence per call; exact effect and frame condition | C118_force, C118_reap, C118_withdraw, C118_effect |
| C119 | Delegations go to validators, by the delegator's wish | proved | equivalence and exact effect; cause of every change over all steps | C119_iff, C119_effect, C119_chosen |
| C120 | Nobody is a validator and a delegator at once | false of the code | false: a delegator may become validator; proved: delegate refuses validators | C120_refuted, C120_partial |
| C121 | What each kind of proxy is for | proved | case analysis over kinds and pallets, against a table of call names | C121_kinds, C121_order |
| C122 | An account held through narrow proxies only does what they may | false of the code | false for NonTransfer (recovery); induction over call trees and runs, provided no recovery is set up; in full for kinds without Recovery | C122_refuted, C122_partial, C122_narrow |
| C123 | A proxy makes its principal do only what its kind is for | false of the code | false through mutual proxies; induction over call trees without detours | C123_refuted, C123_partial |
| C124 | Paused calls are not executed | proved | induction over call trees and runs; exact effect of the sudo key | C124_paused, C124_protected |
| C125 | A pause can be lifted in a further block | false of the code | false: pausing the timestamp inherent ends the chain; proved while it is not paused | C125_refuted, C125_partial |
| C126 | transfer_keep_alive cannot be paused | false of the code | false: it can be paused; proved: equivalence saying which names are beyond pausing | C126_refuted, C126_partial |
| C127 | The node migration keeps every device | proved | byte-level codec against the documented format; a new record never decodes as an old one | C127_migrated, C127_once |
| C128 | Fees and tips are shared between treasury and author | proved | exact balances of everybody; conservation | C128_shares, C128_conserved |
| C129 | The payer is charged the actual fee | false of the code | false when the call removes the payer's account; exact otherwise | C129_refuted, C129_partial, C129_charged |
| C130 | A motion is executed only with the votes it claims | proved | invariant relating stored votes to stances computed from the event log | C130_mandate, C130_votes |
| C131 | A straight majority of the council | false of the code | false: half suffices, and so does the prime alone; proved: exact mandate of every power | C131_refuted, C131_partial, C131_proportions |
| C132 | A unanimous council | false of the code | false: silence follows the prime; proved: nobody stands against | C132_refuted, C132_partial |
| C133 | The fee multiplier follows the load | proved | closed form of the update with the time as limiting dimension; strictness from the size of the terms; induction over blocks | C133_bounds, C133_moves, C133_lasting, C133_order |
| C134 | Fees change slowly | proved | one-step factors, telescoped by induction | C134_pace, C134_day |
| C135 | What a transaction costs | proved | monotonicity through every saturating operation; exact formula in realistic ranges | C135_actual, C135_order, C135_fee |
| C136 | Sessions and eras follow one another | proved | order of the session pallet as an automaton; invariant relating the timeline to the stored eras; schedule lemma | C136_eras, C136_regular |
| C137 | When the next era begins | proved | plan invariant per mode, kept by every step that does not meddle; frame lemma for the mode | C137_schedule, C137_mode |
| C138 | A report is put on the era in which its session ran | proved | the stored list of bonded eras is a suffix of the full list of era starts; search in it | C138_era |
| C139 | Each era is paid once to those elected for it | proved | pay list computed along the history; invariant relates it to the timeline; elections invariant under pruning | C139_when, C139_once, C139_who |
| C140 | Who authors blocks is paid for them | false of the code | false: a failed election; proved: C139 with C95 | C140_partial, C140_refuted |
| C141 | Root can stop eras | false of the code | false: a report that disables a validator; proved: nothing else plans an era | C141_refuted, C141_partial |
| C142 | Delegators are paid what their credit earned | proved | joint model of credit and staking, shown to refine both; disjointness of the cursors combined with the price of each era | C142_earned, C142_full |
| C143 | No hook panics | false of the code | joint model; exact condition for a session start to panic; invariant that everybody exposed has a credit record; totality of reward computation; two refutations | C143_cause, C143_refuted, C143_price_refuted, C143_partial |
| C144 | Who delegates has the credit for it | false of the code | joint model; step invariant for one account over both pallets; refutation, and for all histories the step that is to blame | C144_refuted, C144_partial |
| C145 | A campaign pays for a limited number of eras | false of the code | joint model; the start of the credit history is the era of the last entry; counting argument over the eras paid for (C142) | C145_refuted, C145_partial |
| C146 | Every era of a stay is paid for | false of the code | joint model; the date of the first unpaid era through every step, and by induction over a stay; refutation of the unconditional claim | C146_refuted, C146_partial, C146_stay |
| C147 | The credit history reaches back to the first unpaid era | proved | joint model; invariant: the start of the credit history is at or before the first unpaid era | C147_recorded |
| C148 | Who pays for a credit level gets it | false of the code | Model_Chain (jstaking_delegate, jusdt_delegate), any state. Refuted with a price list of ten levels; proved for levels up to 8 from the definitions of the two calls, with the price list and the level of a score specified separately (Spec_Chain2), the reach of an amount by induction on the loop. | C148_refuted, C148_partial, C148_usdt_partial |
| C149 | Powers come from Root | proved | Model_World. Privileges specified as sets changed by the calls (granted), what each call needs as a table (needs); proved by cases over all calls of the single pallets, and by induction over the history that storage and sets agree. | C149_powers, C149_never |
| C150 | The amount of DPR | proved | Model_World. Each step: money plus channels grows by what its events report; by the lemmas of the single pallets and induction over the history. Who creates: cases over all calls and hooks. | C150_supply, C150_who |
| C151 | Deposits are there | proved | Model_World. Invariant: reserved balance equals the deposits found in the states of the pallets; by cases over all steps. | C151_deposits |
| C152 | Each pallet behaves in the chain as alone | proved | Spec_World2 defines what a pallet sees of a step of the chain (chain_view1, rel_view1, adsc_view1, tips_view1, priv_view). Simulation: every step of Model_World is the pallet's own steps on its part; by cases over all steps and induction. | C152_refines |
| C153 | Ceilings for new DPR | proved | Model_World, through C152 and the single models: the pool (C56's step lemma), the daily limit (C45_daily over the view), and C150. | C153_mints, C153_day, C153_ceiling |
| C154 | Credit is lost only for a cause | proved | Model_World: every step that lowers a score (Proofs_Chain11, Proofs_World7), with the last heartbeat read from the history (Spec_World3.heard) and powers as in C149. | C154_causes, C154_heartbeat, C154_slash |
| C155 | A silent device costs a step of credit per three eras | false of the code | Model_World: refuted by two histories of one delegator; the partial theorem says exactly what each payout does to the score of the delegator it is for. | C155_refuted, C155_partial |
| C156 | A testnet starts with its authorities | proved | Model_Genesis builds a specification: balances, the stakers as calls of bond and validate whose errors are dropped, delegations, the first sessions, then credit and deeper-node; testnet_genesis makes the specification. The authorities' entries are followed by induction over the list (the maps of the staking pallet are exactly the entries done), then the first election takes all that stand. C156_history: the build equals a history of Model_World from its empty genesis, because credit and deeper-node are not read before they are built (`blank`); so all properties of histories apply. Spec_Genesis: `sane`, `granted_stake`. | C156_authorities, C156_history, C156_never |
| C157 | Entries of a chain specification are honoured or the chain is refused | false of the code | Refuted by a specification whose second, third and fourth staker are dropped; C157_delegations shows that no delegation can be given. C157_built characterises the specifications that are built; C157_partial gives the honoured case for all specifications with distinct stakers. | C157_built, C157_delegations, C157_refuted, C157_partial |
| C158 | An NFT leaves its holder with consent | false of the code | pallet_uniques is modelled and joined with the whole chain (Model_Nfts); adsc and credit act on the same NFTs. Refuted by a stake that ends after its NFT was sold. C158_partial: case distinction over every step of every pallet, in any state; C158_offers by induction over histories from genesis; C158_sale from the balances. | C158_refuted, C158_partial, C158_offers, C158_sale |
| C159 | An NFT is paid for once | proved | C159_once by induction over histories of the chain with NFTs, from any state: uses plus what exists is at most what was made plus what existed. C159_gone for the single step. | C159_once, C159_gone |
| C160 | NFTs worth credit come from the issuer of their collection | false of the code | Refuted by a collection that is destroyed and created again by a stranger. C160_partial by induction over histories, from any state in which the collection exists. | C160_refuted, C160_partial |
| C161 | An NFT serves as a stake or for credit, not for both | false of the code | Refuted by a staker who burns the NFT of the stake for credit and is paid the next day. C161_partial by induction from genesis: what is worth credit was priced, what is staked was staked by AAddNft. | C161_refuted, C161_partial |
| C162 | A credit admin can renew an NFT stake | false of the code | Refuted by a burnt NFT (for all later calls, NFTs and admins); C162_partial is an equivalence in every state. | C162_partial, C162_refuted |
| C163 | More credit never earns less | proved | The reward tables follow the settings (invariant over all histories: Proofs_Settings.run_follows); level is monotone in the score, table entries in the level; the hooks' own tables are shown to rise. | C163_more, C163_graded, C163_development |
| C164 | A year at a level pays the yearly rate of the level | proved | Same invariant, then a bound on the rounding of the two Perbill/Percent products for all rates and balances. | C164_year, C164_dollars |
| C165 | Channels keep their guarantees among the other pallets | proved | Every step of the whole chain leaves the channels alone or is a step of the single model at the common bank (Proofs_World9.chan_step); the invariants of Proofs_Micropayment* carry over, the bound on the money from C150. | C165_books, C165_replay, C165_sessions, C165_authority |
| C166 | Devices and reward addresses keep their guarantees among the other pallets | proved | Same for the devices (Proofs_World10.node_step); onboarding against Spec_World3.heartbeats, lists against Spec_World4.registered. | C166_lists, C166_onboard, C166_bound, C166_addresses |
| C167 | The money of a channel can be had | proved | Success lemmas of the single model (claim_ok, client_close_ok) at a reachable state of the whole chain; silence from Spec_World3.silent_eras. | C167_refund, C167_paid |
| C168 | A signature of the operator is good for one action | false of the code | Refuted with an operator that made one signature; the general lemma C168_any holds in every state. C168_own and C168_partial over all steps and histories. | C168_any, C168_refuted, C168_own, C168_partial |
| C169 | No call brings down a block | false of the code | Every function a call reaches is shown never to panic (tactic calms in Proofs_World11), except do_swap, payout_tip, credit_close and slash_credit, for which the panicking states are characterised exactly; the tips part through C152 and C64. | C169_refuted, C169_partial, C169_accounts |
| C170 | The migration of tips keeps every tip | proved | Format of old and new tips as relations on bytes (Spec_TipsMigration), independent of the codec; decoding and encoding proved right against them, then entry by entry. | C170_migrated |
| C171 | A tip survives further runs of the migration | false of the code | Refuted by a tip without finder: the zero account of the new form reads as an absent finder, closing block and list of the old form. C171_partial by induction on the number of runs. | C171_lost, C171_refuted, C171_partial |
| C172 | Money leaves an account only for a listed price | proved | Spec_World6 holds the price list. Each bank operation loses at most its amount plus a dying rest (Proofs_World12); each pallet's call is bounded by its price (13, 14); the micropayment pallet moves money between balances and channels, so its calls are measured on both together (15); sums over histories and the uninvolved account in 16. Transaction fees are not in the model. | C172_step, C172_others, C172_bill |
| C173 | A stake can be had back | false of the code | Steps of others change a stake only by slashes or dissolve it (labels of Proofs_Staking; payouts leave a stake whose payee is not Staked); every chunk is due by the current era plus the bonding duration, an invariant of all histories; so after that time the withdrawal meets C118. Refuted by 32 chunks. That eras advance is a hypothesis: Root can stop them. | C173_leave_partial, C173_room_partial, C173_refuted |
| C174 | An ordinary account changes only its own affairs | proved | Spec_World7 lists what the chain keeps about an account and who may act for it. Each pallet's calls are shown to write only under the signer's key (Proofs_World17); stakes need the invariant that controllers and stashes are paired one to one. Who is ordinary is read off the history of grants, by C149. | C174_others, C174_always |
| C175 | Others cannot keep an account from acting | false of the code | Refuted twice: bonding with another account as controller keeps that account from being its own controller, and an address for rewards can be taken by whoever asks first, because the operator signs for the account and not for the address. C175_partial: the calls that manage a stake, end a delegation or keep a device read only the affairs of C174, so the same theorem carries their success over. | C175_refuted, C175_address_refuted, C175_partial |
| C176 | inspect shows the block it is asked for | proved | Model_Inspect, with text as a list of bytes; the three parsers (32-byte hash, integer, hex bytes) are recursive functions. Spec_Inspect has relations for how numbers and bytes are spelled. A number below 2^32 has at most ten digits, a hash needs 64; hex of more than 32 bytes fails the hash parser; an x fails the integer parser. The converse by induction on the parsers. | C176_number, C176_hash, C176_bytes, C176_only |
| C177 | inspect shows the extrinsic it is asked for | proved | A colon is no hex digit, so the reading as bytes fails; the split then finds the colon first because digits of numbers and hashes are no separators. Hex after 0x is always read as bytes. | C177_number, C177_hash, C177_bytes |
| C178 | inspect accepts every separator it splits at | false of the code | Refuted: the hex parser skips blanks, so the reading as bytes wins. C178_never shows this for every number and index, C178_partial that colon and dot work. | C178_partial, C178_refuted, C178_never |
| C179 | A signed transaction takes effect at most once | false of the code | Model_Extrinsic: the checks of the SignedExtra tuple over account nonces and block hashes; calls, fees and signatures are parameters, and every step may remove, create or raise any account entry. The nonce after any log of such events is the old one plus the raises modulo 2^32 if the account was not removed. Refuted with transfers over Balances: emptied, removed, paid again, replayed. | C179_partial, C179_order_partial, C179_refuted |
| C180 | A signature serves only what was signed | proved | Invariant over all runs: the hashes kept are those of the last 2401 blocks and of block 0, at their numbers. With distinct hashes the birth block computed at the current block must be the one signed; division with remainder bounds the distance by the period. | C180_scope, C180_period |
| C181 | What an offchain worker signs stays valid | proved | The period is 2048, so the phase is not rounded and the birth block is the parent in each of the following blocks; its hash is still kept by the invariant of C180. | C181_taken |
| C182 | The work of a block is limited | false of the code | Model_Meter follows the three loops for the entries they fetch; C182_loops ties these counts to the rounds, removals and events of Model_Staking, Model_Adsc and Model_Operation. Induction on the list of entries. The counterexamples are reachable states for every number of entries. | C182_delegators, C182_quota, C182_adsc_partial, C182_adsc_refuted, C182_releases_partial, C182_releases_end, C182_releases_refuted, C182_loops |
| C183 | Hooks report the weight of their work | false of the code | Model_Meter adds up the reads and writes named in the returned Weight, line by line; what the credit pallet's get_reward reports is a parameter. | C183_delegators, C183_payments, C183_rounds, C183_adsc_partial, C183_adsc_refuted, C183_releases_refuted |
| C184 | The proxies of an account | proved | an induction principle for whatever composes over nested calls and holds of the plain ones; the lists are strictly ordered by (delegate, kind, delay) | C184_list, C184_changes, C184_add, C184_remove, C184_clear |
| C185 | A proxy can use the kind it was given | false of the code | the first fitting entry of a strictly ordered list is the least; false without a named kind | C185_refuted, C185_delay_refuted, C185_partial, C185_first |
| C186 | What reporters of an offence get | proved | Induction over the slashes that have waited long enough (those of C94); half is floor division by two; the deposits are exact where the accounts live. | C186_promise, C186_most, C186_shares |
| C187 | Only the ADSC pallet makes ADSC | false of the code | Model_Assets puts the team, status and calls of pallet_assets around Model_Adsc. If the pallet made the asset, the history is simulated by one of Model_Adsc alone (C187_same_partial) and the rest follows from C79's invariant; false if another account created asset 0 first, and on a new chain. | C187_supply_partial, C187_same_partial, C187_holdings_partial, C187_usable_partial, C187_refuted, C187_new_chain_refuted, C187_promise_refuted |
| C188 | A server is listed for the time it asked for | false of the code | Invariant: the recorded end of each device is what a specification over the accepted calls says; who serves is taken from C11's registry, so an offer counts exactly if the device does not serve yet. False of the lists, which no hook and no time touches. | C188_record_partial, C188_limit_partial, C188_never_ends_refuted, C188_refuted, C188_offer_refuted |
| C189 | What a credit record says besides its score | proved | Case analysis over every call and entry point of Model_Credit: what a step does to the record of one account is one of the reasons listed in Spec_Record; the number of paid eras by induction over the history. | C189_reasons, C189_eras, C189_kept |
| C190 | The pool's record tells what the pool holds | false of the code | Invariant: the record is the saturated sum of a specification over the history; the balance equals it by induction while nothing is taken out. Witnesses for a swap and for dust. | C190_record_partial, C190_holds_partial, C190_refuted, C190_dust_refuted |
| C191 | Stakes in dollars and stakes in DPR are kept apart | false of the code | Induction over histories of the joined chain: every step leaves the table of dollars alone but for the two calls; inversion of the two purchases for the kinds. Witness for a stake given back. | C191_dollars_partial, C191_dpr_partial, C191_kinds_partial, C191_refuted |
| C192 | Referees are limited and paid for | false of the code | Corollary of the reasons of C189 and of the check made when a record is written; induction with the largest limit of all visited states. Witnesses for a change of campaign and for pay. | C192_written_partial, C192_most_partial, C192_allowed_refuted, C192_paid_refuted |
| C193 | What a referer gets | proved | Induction over the payment loop against a reading of its events as a sequence of delegators each followed by its referer; the counters are those of C58. | C193_shares, C193_only |
| C194 | Who is on the black list earns nothing | false of the code | Induction over the payment loop; witness for the share of a referer. | C194_delegator_partial, C194_refuted |
| C195 | Each privilege reaches one part of the affairs of others | proved | The affairs of C174 in twelve parts, each with the privileges over it; per call what an officer writes, the rest as in C174, by induction over histories. C195_exact gives for each listed privilege an officer who holds only it and changes the part. | C195_reach, C195_kept, C195_evm, C195_exact |
| C196 | Levels can be paid for in parts | false of the code | Two purchases compared with one, from C148: what is reached with two amounts is at most what is reached with their sum; prices telescope. Witness for what is lost between two entries in dollars. | C196_refuted, C196_dollars_partial, C196_dpr_partial |
| C197 | The reporters of one slashing span share its reward | proved | Invariant over histories: what the span records as slashed and paid out equals the sums of Spec_Reporter2 over all reports, and the second is at most the reward fraction of the first; half is floor division by two. | C197_together, C197_next, C197_fraction |
| C198 | Compensations keep to the limits on payments | false of the code | The step of the whole chain computed in full; the limits are those of C45. Witness for four compensations on one day. | C198_when, C198_paid_partial, C198_daily_refuted |
| C199 | The history of eras is as deep as it is said to be | false of the code | What each step does to the records of all eras, then induction; the limits of the history move by the same amount as what is cleared. Witnesses for depths 0 and 2^32 - 1, which set_history_depth accepts. | C199_kept, C199_points, C199_gone, C199_points_gone_partial, C199_written_partial, C199_points_gone_refuted, C199_written_refuted |
| C200 | Staking respects locks set by others | proved | A relation between states that every function of the pallet keeps, then induction over the history. What happens to balances elsewhere is any change that keeps the account and what is frozen of it right. | C200_step, C200_run |
| C201 | A stake is covered by the money of its stash | false of the code | An invariant of ledgers, locks and balances kept by every function of the pallet, then induction; what happens to balances elsewhere is asked to take nothing frozen, which each operation of the balances pallet but slash_reserved does (C201_balances). Refuted in the whole chain with a slashed tip. | C201_partial, C201_genesis_partial, C201_balances, C201_refuted |
| C202 | A cancelled slash leaves no trace | false of the code | What each report adds to the queues, by induction over the validators reported, then C59 for the cancelled ones. Refuted as to the rest: the record of the span and of the era keep what was cancelled, and the validator is out. | C202_report, C202_partial, C202_refuted |
| C203 | Enough validators are elected | false of the code | What each step does to the two numbers, then induction; the size of the elected set from the election itself. Witnesses: asking for 0 validators, adding so that the number wraps, asking for fewer than the minimum. | C203_size, C203_partial, C203_refuted |
| C204 | Invulnerable validators are not slashed | false of the code | A report touches only the stakes, spans and queues of those it does not skip, by induction over the validators reported; that nothing waits against the validator is then an invariant of histories. Refuted for slashes that wait when a validator is made invulnerable: they are applied without looking at the list. | C204_report, C204_partial, C204_refuted |
| C205 | Whoever stands gets its turn | false of the code | A count of those who go before the validator: each election without it takes as many of them to the end of the queue as there are seats (C53), no other step adds to them if no era of election is forgotten, by induction over histories. Refuted by delegators who repeat their delegation. | C205_kept, C205_partial, C205_refuted |

## Trusted base

* Coq's kernel (8.16.1), the standard library and std++ as compiled.
* `Print Assumptions` for every one of the 488 theorems above prints `Closed under the global context`: no axioms, neither
  of our own nor of the standard library. (Loading std++ makes ssreflect's opaque `Under_rel` constants part of the
  environment; no theorem depends on them.)
* The correspondence between the Rust text and the Gallina definitions, by reading. Every definition cites its lines.
* `pallet_balances`, `pallet_assets`, `pallet_uniques`, FRAME storage, dispatch and Frontier's calls of precompiles, as
  described in `Balances.v` and in the model comments; SCALE codec of tuples and integers where bytes are signed.

## What is modelled

| file in /repo | model | parts |
|---|---|---|
| pallets/micropayment/src/lib.rs | Model_Micropayment | all calls: open, add, claim, close (one, several, expired), and the signed bytes |
| pallets/deeper-node/src/lib.rs | Model_DeeperNode, Model_Regions | all calls, hooks and interface functions; the whole region table |
| pallets/credit/src/lib.rs, credit_setting.rs, primitives/src/credit.rs | Model_Credit | all calls, on_initialize, on_finalize, the 2023 runtime upgrade of the genesis campaign, CreditInterface |
| pallets/credit-accumulation/src/lib.rs | Model_CreditAccumulation | all calls and the signed bytes |
| pallets/user-privileges/src/lib.rs, primitives/src/user_privileges.rs | Model_UserPrivileges | all calls, codec of privileges, both migrations |
| pallets/precompile-credit/src/lib.rs, util.rs, runtime/src/precompiles.rs | Model_Precompile | execute at byte level, context checks, the precompile set |
| pallets/adsc/src/lib.rs | Model_Adsc | all calls and on_initialize |
| pallets/operation/src/lib.rs | Model_Operation | all calls and hooks |
| pallets/staking/src/lib.rs, slashing.rs | Model_StakingLedger, Model_Staking | all calls, on_initialize, on_finalize, session manager, elections, payouts, offences, slashing |
| pallets/staking and pallets/credit (lib.rs:1302-1630 CreditInterface) in one state | Model_Chain | what staking asks of credit (delegation check, history, reward, slash) is answered by the credit model itself |
| runtime/src/lib.rs:1551-1624 construct_runtime: user-privileges, credit-accumulation, deeper-node, credit, staking, micropayment, operation, adsc and tips over one set of balances | Model_World | every answer one of these pallets gives another comes from its state, and calls between them are carried out; the fee of a channel is deposited once, at the end of the call; NFTs are kept by credit and by adsc separately; elected members, locks of other pallets and reference counts are surroundings |
| cli/src/chain_spec.rs:362-464 | Model_Settings | the table of credit settings of campaign 0 with which the development and local chains start |
| runtime/src/lib.rs:1289-1306, pallets/credit/src/lib.rs:637-665, pallets/adsc/src/lib.rs:283-320, 532-588 | Model_Nfts | collections, NFTs, approvals, prices and sales of `pallet_uniques` (trusted environment) in one state with the whole chain: credit and adsc see and change the same NFTs; freezing, attributes and the maximal supply are left out |
| pallets/staking/src/lib.rs:976-1048, pallets/credit/src/lib.rs:318-347, pallets/deeper-node/src/lib.rs:160-182, cli/src/chain_spec.rs:122-248 | Model_Genesis | the genesis builders in the order of the runtime, and testnet_genesis; `pallet_balances` and `pallet_session` builders are trusted environment |
| pallets/tips/src/lib.rs | Model_Tips | all calls |
| pallets/tips/src/lib.rs:725-777 | Model_TipsMigration | the migration on stored bytes, with the SCALE codec |
| pallets/elections-phragmen/src/lib.rs | Model_Elections | all calls, on_initialize, genesis, the election with its algorithm (`seq_phragmen`) as a parameter |
| runtime/src/lib.rs (276, 333-395, 1101, 1489-1511, 1551-1624) | Model_Runtime | proxy kinds, pause whitelist, base call filter; the library pallets that pass origins on (proxy, utility, sudo, multisig with threshold 1, recovery, tx-pause) are written down from their published behaviour and belong to the trusted environment |
| pallets/deeper-node/src/migration.rs | Model_Migration | the migration on stored bytes, with the SCALE codec |
| runtime/src/lib.rs:217-232, 539, impls.rs:24-31 | Model_Fees | sharing of fees and tips; `CurrencyAdapter` and the treasury's deposit are trusted environment |
| runtime/src/lib.rs:425-428, 637-640, 673-710, 726-745, 789-811, 853-856, 1133-1134 | Model_Council | motions and powers of council and technical committee; `pallet_collective` is trusted environment |
| runtime/src/lib.rs:238-268, 528-550 | Model_Price | the fee multiplier and the fee; `TargetedFeeAdjustment`, `compute_fee` and `FixedU128` are trusted environment |
| inspect/src/lib.rs:142-271, command.rs:41-54 | Model_Inspect | reading of addresses and lookup; the parsers of impl-serde, fixed-hash, rustc-hex and core are written down from their published source; client and decoders are parameters, printing is left out |
| runtime/src/lib.rs:247, 970-1016, 1666-1675 | Model_Extrinsic | which signed transactions are taken; the members of SignedExtra and `frame_system`'s accounts and hashes are written down from their published source; the effect of calls, weight and fee, and the signature scheme are parameters |
| pallets/adsc/src/lib.rs:207-232, 490-550, pallets/operation/src/lib.rs:247-259, 540-615, pallets/staking/src/lib.rs:2150-2181, 2676-2857 | Model_Meter | entries looked at and weight reported by these hooks, following the loops of the three models |
| runtime/src/lib.rs:1181-1210, 1465, pallets/adsc/src/lib.rs:233-257 | Model_Assets | the asset that carries ADSC: its team and status and the calls of `pallet_assets`; metadata, approvals, touch, refund and block are left out |

## What is not modelled

The weights of the calls (of the hooks only what Model_Meter counts) and the fees beyond Model_Fees; events (except where an event is the only observable result); RPC, node and client code except testnet_genesis and the inspect subcommand;
genesis builders other than those of Model_Genesis and Model_Elections; benchmarking; the EVM interpreter itself;
GRANDPA/BABE; third-party pallets beyond the calls used; debug assertions; the migrations of `pallets/elections-phragmen` and `sp_npos_elections::seq_phragmen` itself, which is
a parameter assumed to return distinct candidates that stand, no more than asked for (`elect_ok`); the staking pallet's statistics storage that nothing reads (listed at the head
of Model_Staking); log lines.

## Findings: where the code disagrees with its documentation or with what a user expects

Each has a machine-checked witness.

* C205: do_delegate and _undelegate remove the entry in CandidateValidators, and with it elected_era, when the last delegator leaves. A validator with a single delegator who repeats `delegate` once per era goes before all others at every election, and starves them.
* C204: the list of invulnerables is looked at when offences are reported, not when slashes are applied: a validator made invulnerable while a slash of it waits is slashed later, unless Root also cancels that slash.
* C203: elect compares MinimumValidatorCount with the candidates, not with those elected, and set_validator_count accepts 0 (increase_validator_count can wrap to it): an empty set of validators is then elected and handed to the session pallet.
* C202: cancel_deferred_slash leaves ValidatorSlashInEra and SpanSlash as the report wrote them, so a validator let off after a mistaken report can offend again in that era, up to the same part of its stake, for nothing.
* C201: reserved money counts towards locks, so a stash may send away as much as it has reserved; when the deposit is then slashed (slash_tip, and lost candidacies in elections) the ledger says more than the stash has, and the full stake still counts in elections.
* C199: set_history_depth accepts 0, with which the records of the active era are cleared when the next era is planned, so that its validators are not paid and later points are never removed; and 2^32 - 1, with which HistoryDepth + 1 wraps to 0, new_era clears the record it has just written and the next era never begins.
* C198: compensations are held against the daily limit but not added to TotalDailyRelease, so several in one day exceed it; npow_mint asks for no limit at all.
* C196: usdt_staking_delegate compares each entry with the price of the next level from the price of the present one, so dollars beyond the price of the level reached are lost for later entries, though UserStakingBalance counts them.
* C194: the black list stops only the pay for delegating; the share for referees goes on. It also takes the pay of eras before the entry that was not paid yet.
* C192: number_of_referees is stored and checked but never read when rewards are computed; _update_credit_setting takes reward_per_referee times max_referees off the daily reward of everybody, and nothing is given back.
* C191: unstaking_slash gives the stake back but leaves UserStakingBalance; an admin must clear it with a separate call, or a later stake in dollars is added to it.
* C190: TotalPoolDpr is never lowered by swaps and counts additions that deposit_creating dropped.
* C189: for campaigns up to 6 a claim moves the user on at every claim, not at the end of the campaign; if the campaign is named for itself, each claim prolongs the paid time by half a year, so that it never ends. Giving the stake back resets rank and referees to zero.
* C188: `expire` is written but never read; a server stays listed for ever unless it withdraws. register_server answers Ok to a device that is listed already and changes nothing (try_add_server's error is thrown away); update_server accepts devices that are no servers.
* C187: on_runtime_upgrade ignores that `create` fails if asset 0 exists, and any account may create it for 100 DPR (CreateOrigin = EnsureSigned). Whoever does so before the upgrade can mint ADSC and swap it for the pool of 100 million DPR. On a new chain the storage version is 2 from the start, so the pallet never creates the asset.
* C185: an account named as proxy for several kinds acts, unless it names one, under the first declared (Any, NonTransfer, Governance, Staking), even if that one is delayed or refuses the call while another would allow it.
* C182, C183: adsc_reward passes over silent stakers without counting them or adding weight, so one block may walk through all of them unreported; release_staking_balance runs in on_finalize, walks through all schedules that begin later, and the pallet reports no weight at all.
* C179: an account emptied below the existential deposit is removed with its nonce; its old immortal transactions can be submitted again by anybody once it has money again.
* C178: inspect extrinsic splits its address at spaces too, but an address with a space is read as hex bytes before it is split.
* C171: a second run of the tips migration wipes the votes and the closing block of the tips without finder.
* C169: any account can make a call that panics: closing with close_tip a tip that the members valued in credit only (or the other way round); a holder of ADSC by swapping while the rate is zero. (Outside the model: a panicking call is dropped by the block author and pays no fee.)
* C168: a signature of the operator covers the key, a nonce and the account, not the action. reward_mapping and report_credit_proof keep no nonce, so an account with one signature can bind any number of unbound EVM addresses to itself for good, and whatever credit those addresses are given by EVM calls goes to it; the owner of such an address can never bind it. With the same signature the account buys any number of levels by staking_delegate. Reported traffic and uptime figures are not signed.
* C158: when an ADSC stake ends or is renewed, the NFT made for it is destroyed even if it has been sold in the meantime.
* C160: anybody may create a collection with a number that is worth credit but not taken, and turn its NFTs into credit; the admin of a collection may burn a holder's NFT for the admin's own credit.
* C161: an NFT given for an ADSC stake can be burned for credit; the stake goes on and is paid.
* C162: once the NFT of a stake is burnt, or its metadata cleared by the owner of the collection, the stake cannot be renewed; cleared metadata also lets the NFT outlive the stake.
* C157: a chain specification with `delegations` can never be built (staking is built before credit and unwraps the error); stakers whose bond fails are dropped silently.
* C155: the slash for an offline device depends on when in the era its delegator is paid; as others join or leave, the fourth era of silence can be missed or met twice.
* C148: `CreditLevel::from(u8)` maps every number above 8 to level zero; if the price list has more than nine entries, the buyer of level 9 pays the full price and the score does not rise.
* C146: `_undelegate` compares the first unpaid era, counted by the clock, with the staking pallet's own era; leaving in the first blocks of an era, before the staking pallet has moved on, forfeits the pay of the previous era.
* C145: a delegator who leaves in the era up to which it has been paid and joins again gets a new reward period; a campaign of n eras can be paid for ever.
* C144: credit taken by the EVM, by an unstaking slash, for an offline node or by an officer does not end a delegation: the account stays a delegator below the threshold and is counted in elections.
* C143: force_unstaking_delegate (also force_undelegate and the EVM with u64::MAX) erases a credit record; when a deferred slash that names the account falls due, slash_credit unwraps nothing and the start of the session panics: no block can be built any more. Two prices of 2^127 in a block add up to zero; the next payment to a dollar staker divides by it inside on_initialize.
* C140: when an election fails the current era moves on without validators of its own; the old ones work that era unpaid.
* C141: an offence that disables a validator starts a new era although Root has stopped eras.
* C08: a claim above the channel balance pays nothing and leaves the channel open: the error returned after the payment undoes it.
* C67, C68: closing a channel takes a burn fee out of the client's own money; a small channel of a dead account cannot be closed.
* C16: after an account moves to a new EVM address the old address still resolves to it, for ever.
* C70: the operator's signature on a credit proof covers neither timestamp, traffic nor uptime.
* C23: slashing the credit of a bound account without credit panics inside a block.
* C24: an offline slash is undone when the same claim moves the user to another campaign.
* C25, C26, C27: sums wrap: the price average (128 bits), the points bought (32 bits), the NFT credit total (64 bits).
* C73: the runtime upgrade of the genesis campaign misses the schedule after the last step.
* C31: while a key is unset, signatures under the all-zero key are accepted.
* C35: the privilege migration overwrites privileges of accounts with several roles.
* C37, C38, C75, C76: the credit precompile reports success when nothing changed, is not advertised at 1030, can be used through
  a delegated call by contracts that hold no privilege, and looks at the low 64 bits of an amount only.
* C42, C43: an ADSC swap panics at a zero rate and loses products beyond 128 bits; burning a staked NFT lets it be staked twice.
* C44, C85, C87: a release schedule pays too much after skipped days, gets stuck for ever when its due amount exceeds the single
  maximum, and counts dust as paid.
* C86: a bridge admin moves any account's money without the owner's request.
* C49: setting a lock of zero does nothing, so the old lock of a stash stays after a slash of its whole stake.
* C50: Root can dissolve a stake at once, anybody can if the stash holds exactly the existential deposit, and a controller may
  burn its stake; none of these waits for the bonding duration.
* C56: rounding lets validators' shares exceed the mining pool.
* C62, C63, C64, C91: a tip may be closed without paying; credit declarations count as balance declarations for the closing time;
  closing in the channel nobody voted in panics; tips opened by tip_new can be retracted.
* C104: the runtime sets `InitializeMembers = ()`, so members named at genesis are not in the council until the first election
  or removal.
* C107: stakes of members named at genesis are neither locked nor backed by a deposit; they may be spent and still count.
* C110: one candidate more than MaxCandidates is accepted.
* C111: once there are more than MaxVoters voters, no election succeeds any more, instead of the surplus being ignored; anybody
  can bring this about for the price of the deposits.
* C112: remove_member holds the election also if a runner-up has already taken the seat.
* C113: a name repeated on a ballot counts again for the choice of the prime.
* C122: a proxy of kind NonTransfer may set up a recovery of its principal and so obtain the whole account, money included.
* C123: a proxy of a narrow kind reaches every call of its principal if the principal is a full proxy of somebody whose full
  proxy it is in turn.
* C125: Timestamp::set can be paused; then no block can be made, so nothing can lift the pause.
* C126: the whitelist's comment names transfer_keep_alive; the code lets it be paused and whitelists Sudo and System.
* C129: if the paid call removes the payer's account, the unused part of the fee is not returned but shared out as fee.
* C131, C132: half of the council passes for a "straight majority"; and if the others keep silent, the prime alone passes for a
  majority and even for a "unanimous council" once the motion has had its time.
* C120: a delegator may become a validator: `validate` does not look at the delegators.

* The runtime links the upstream `pallet-elections-phragmen` (runtime/Cargo.toml:69), not the fork in `pallets/`; the email
  identity required by the fork (C109) is therefore not required on the chain.

## Limits worth knowing

* Histories are lists of operations of one pallet, other pallets acting through explicit operations (for example `KBank` in the
  staking model replaces the balances by any others). Credit and staking are also modelled in one state (Model_Chain), each
  asking the other, and the runtime's nine pallets over one set of balances (Model_World). There the elections pallet is
  not joined, and other pallets' deposits are moves of the surroundings.
* Several theorems assume machine-size bounds (`sane`, `fits`, `small_points` in Spec_Staking): balances, era and session
  numbers stay below their types' limits. The bounds are stated in the theorems.
* C60 assumes that reports about an era carry that era's exposure, as the session history proof does.

## Tests of the theorems

`seeded/LOG.jsonl` lists wrong variants of the model (one realistic bug each), the claim each breaks, the theorems that fail
on it and the theorems that were tightened because they did not. Variants were made in scratch copies.
