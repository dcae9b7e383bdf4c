(** pallets/staking/src/lib.rs and slashing.rs: bonding, elections, delegation,
    payouts and slashing.

    Simplifications. [ValidatorPrefs], [ErasValidatorPrefs], the statistics in
    [Reward], [CanceledSlashPayout], [IsCurrentSessionFinal], logs, weights and
    events no property uses are omitted: nothing else depends on them.
    [EraElectionStatus] is omitted: outside benchmarks the only value ever stored
    is Closed (lib.rs:2892), which is also the default. The field
    [DelegatorData::delegator] is omitted: the only inserts (lib.rs:2414, 2434) use
    the key of the map. Lookup of addresses is the identity. Answers of the credit,
    privilege, operation and session pallets come from the surroundings ([kctx]). *)
From Verif Require Import Base Balances Model_StakingLedger.
From Verif Require Model_Operation Model_Adsc.
From stdpp Require Import gmap sorting.
Open Scope N_scope.

(** ** Types *)

(** lib.rs:161-176 RewardDestination; Staked is the default. *)
Inductive payee := PStaked | PStash | PController | PAccount (who : N).
(** lib.rs:550-566 Forcing; NotForcing is the default. *)
Inductive forcing := NotForcing | ForceNew | ForceNone | ForceAlways.
(** lib.rs:347-370 Exposure. *)
Record expo := Expo { x_total : N; x_own : N; x_others : list N }.
(** lib.rs:372-399 UnappliedSlash. *)
Record uslash :=
  USlash { u_val : N; u_own : N; u_others : list N; u_reps : list N; u_pay : N }.
(** lib.rs:498-520 DelegatorData. *)
Record drec := DRec { dr_vals : list N; dr_since : option N; dr_on : bool }.
(** lib.rs:522-535 ValidatorData. *)
Record cand := Cand { cd_dels : gset N; cd_era : N }.
Definition cand0 : cand := Cand ∅ 0.

(** lib.rs:911-917 DelegatorsKeyPrefix and DelegatorsLastKey: unset, at the
    prefix, or at the storage key of a delegator. *)
Inductive kcursor := CUnset | CPrefix | CKey (k : N).

(** Storage, in four groups. Bonding and slashing, lib.rs:709-727, 815-870; [s_lock] is the
    lock STAKING_ID held by the balances pallet. *)
Record stk := Stk {
  s_bonded : gmap N N;             (* Bonded *)
  s_ledger : gmap N ledger;        (* Ledger *)
  s_payee : gmap N payee;          (* Payee *)
  s_valid : gset N;                (* Validators *)
  s_lock : gmap N N;               (* the lock STAKING_ID *)
  s_spans : gmap N spans;          (* SlashingSpans *)
  s_rec : gmap (N * N) (N * N);    (* SpanSlash: slashed, paid_out *)
  s_in_era : gmap (N * N) (N * N); (* ValidatorSlashInEra: proportion, amount *)
  s_unapp : gmap N (list uslash);  (* UnappliedSlashes *)
  s_first : option N;              (* EarliestUnappliedSlash *)
}.
Definition set_s_bonded (s : stk) (v : gmap N N) : stk :=
  Stk v (s_ledger s) (s_payee s) (s_valid s) (s_lock s) (s_spans s) (s_rec s) (s_in_era s) (s_unapp s) (s_first s).
Definition set_s_ledger (s : stk) (v : gmap N ledger) : stk :=
  Stk (s_bonded s) v (s_payee s) (s_valid s) (s_lock s) (s_spans s) (s_rec s) (s_in_era s) (s_unapp s) (s_first s).
Definition set_s_payee (s : stk) (v : gmap N payee) : stk :=
  Stk (s_bonded s) (s_ledger s) v (s_valid s) (s_lock s) (s_spans s) (s_rec s) (s_in_era s) (s_unapp s) (s_first s).
Definition set_s_valid (s : stk) (v : gset N) : stk :=
  Stk (s_bonded s) (s_ledger s) (s_payee s) v (s_lock s) (s_spans s) (s_rec s) (s_in_era s) (s_unapp s) (s_first s).
Definition set_s_lock (s : stk) (v : gmap N N) : stk :=
  Stk (s_bonded s) (s_ledger s) (s_payee s) (s_valid s) v (s_spans s) (s_rec s) (s_in_era s) (s_unapp s) (s_first s).
Definition set_s_spans (s : stk) (v : gmap N spans) : stk :=
  Stk (s_bonded s) (s_ledger s) (s_payee s) (s_valid s) (s_lock s) v (s_rec s) (s_in_era s) (s_unapp s) (s_first s).
Definition set_s_rec (s : stk) (v : gmap (N * N) (N * N)) : stk :=
  Stk (s_bonded s) (s_ledger s) (s_payee s) (s_valid s) (s_lock s) (s_spans s) v (s_in_era s) (s_unapp s) (s_first s).
Definition set_s_in_era (s : stk) (v : gmap (N * N) (N * N)) : stk :=
  Stk (s_bonded s) (s_ledger s) (s_payee s) (s_valid s) (s_lock s) (s_spans s) (s_rec s) v (s_unapp s) (s_first s).
Definition set_s_unapp (s : stk) (v : gmap N (list uslash)) : stk :=
  Stk (s_bonded s) (s_ledger s) (s_payee s) (s_valid s) (s_lock s) (s_spans s) (s_rec s) (s_in_era s) v (s_first s).
Definition set_s_first (s : stk) (v : option N) : stk :=
  Stk (s_bonded s) (s_ledger s) (s_payee s) (s_valid s) (s_lock s) (s_spans s) (s_rec s) (s_in_era s) (s_unapp s) v.
(** Eras, lib.rs:733-812. *)
Record eras := Eras {
  e_cur : option N;                (* CurrentEra *)
  e_act : option (N * bool);       (* ActiveEra: index, whether start is set *)
  e_start : gmap N N;              (* ErasStartSessionIndex *)
  e_bonded : list (N * N);         (* BondedEras *)
  e_force : forcing;               (* ForceEra *)
  e_vals : gmap N (list N);        (* ErasValidators *)
  e_stakers : gmap (N * N) expo;   (* ErasStakers *)
  e_points : gmap N (N * gmap N N);(* ErasRewardPoints: total, individual *)
  e_stake : gmap N N;              (* ErasTotalStake *)
}.
Definition set_e_cur (s : eras) (v : option N) : eras :=
  Eras v (e_act s) (e_start s) (e_bonded s) (e_force s) (e_vals s) (e_stakers s) (e_points s) (e_stake s).
Definition set_e_act (s : eras) (v : option (N * bool)) : eras :=
  Eras (e_cur s) v (e_start s) (e_bonded s) (e_force s) (e_vals s) (e_stakers s) (e_points s) (e_stake s).
Definition set_e_start (s : eras) (v : gmap N N) : eras :=
  Eras (e_cur s) (e_act s) v (e_bonded s) (e_force s) (e_vals s) (e_stakers s) (e_points s) (e_stake s).
Definition set_e_bonded (s : eras) (v : list (N * N)) : eras :=
  Eras (e_cur s) (e_act s) (e_start s) v (e_force s) (e_vals s) (e_stakers s) (e_points s) (e_stake s).
Definition set_e_force (s : eras) (v : forcing) : eras :=
  Eras (e_cur s) (e_act s) (e_start s) (e_bonded s) v (e_vals s) (e_stakers s) (e_points s) (e_stake s).
Definition set_e_vals (s : eras) (v : gmap N (list N)) : eras :=
  Eras (e_cur s) (e_act s) (e_start s) (e_bonded s) (e_force s) v (e_stakers s) (e_points s) (e_stake s).
Definition set_e_stakers (s : eras) (v : gmap (N * N) expo) : eras :=
  Eras (e_cur s) (e_act s) (e_start s) (e_bonded s) (e_force s) (e_vals s) v (e_points s) (e_stake s).
Definition set_e_points (s : eras) (v : gmap N (N * gmap N N)) : eras :=
  Eras (e_cur s) (e_act s) (e_start s) (e_bonded s) (e_force s) (e_vals s) (e_stakers s) v (e_stake s).
Definition set_e_stake (s : eras) (v : gmap N N) : eras :=
  Eras (e_cur s) (e_act s) (e_start s) (e_bonded s) (e_force s) (e_vals s) (e_stakers s) (e_points s) v.
(** Parameters, lib.rs:678-707, 814, 967-973. *)
Record pars := Pars {
  p_ed : N;                        (* ExistentialDeposit *)
  p_reward : N;                    (* EraValidatorReward *)
  p_count : N;                     (* ValidatorCount *)
  p_min : N;                       (* MinimumValidatorCount *)
  p_white : list N;                (* ValidatorWhiteList *)
  p_invul : list N;                (* Invulnerables *)
  p_frac : N;                      (* SlashRewardFraction, parts per billion *)
  p_depth : N;                     (* HistoryDepth *)
}.
Definition set_p_ed (s : pars) (v : N) : pars :=
  Pars v (p_reward s) (p_count s) (p_min s) (p_white s) (p_invul s) (p_frac s) (p_depth s).
Definition set_p_reward (s : pars) (v : N) : pars :=
  Pars (p_ed s) v (p_count s) (p_min s) (p_white s) (p_invul s) (p_frac s) (p_depth s).
Definition set_p_count (s : pars) (v : N) : pars :=
  Pars (p_ed s) (p_reward s) v (p_min s) (p_white s) (p_invul s) (p_frac s) (p_depth s).
Definition set_p_min (s : pars) (v : N) : pars :=
  Pars (p_ed s) (p_reward s) (p_count s) v (p_white s) (p_invul s) (p_frac s) (p_depth s).
Definition set_p_white (s : pars) (v : list N) : pars :=
  Pars (p_ed s) (p_reward s) (p_count s) (p_min s) v (p_invul s) (p_frac s) (p_depth s).
Definition set_p_invul (s : pars) (v : list N) : pars :=
  Pars (p_ed s) (p_reward s) (p_count s) (p_min s) (p_white s) v (p_frac s) (p_depth s).
Definition set_p_frac (s : pars) (v : N) : pars :=
  Pars (p_ed s) (p_reward s) (p_count s) (p_min s) (p_white s) (p_invul s) v (p_depth s).
Definition set_p_depth (s : pars) (v : N) : pars :=
  Pars (p_ed s) (p_reward s) (p_count s) (p_min s) (p_white s) (p_invul s) (p_frac s) v.
(** Delegation and the mining pool, lib.rs:886-965. *)
Record dels := Dels {
  d_recs : gmap N drec;            (* Delegators *)
  d_cand : gmap N cand;            (* CandidateValidators *)
  d_count : N;                     (* DelegatorCount *)
  d_active : N;                    (* ActiveDelegatorCount *)
  d_per : N;                       (* DelegatorPayoutsPerBlock *)
  d_cursor : kcursor;              (* DelegatorsLastKey *)
  d_pool : option N;               (* RemainderMiningReward *)
  d_black : gmap N N;              (* BlackList *)
  d_ref : gmap N N;                (* UserReferer *)
  d_refc : gmap N N;               (* UserRefereeCount *)
  d_bal : gmap N N;                (* DelegatorBalances *)
}.
Definition set_d_recs (s : dels) (v : gmap N drec) : dels :=
  Dels v (d_cand s) (d_count s) (d_active s) (d_per s) (d_cursor s) (d_pool s) (d_black s) (d_ref s) (d_refc s) (d_bal s).
Definition set_d_cand (s : dels) (v : gmap N cand) : dels :=
  Dels (d_recs s) v (d_count s) (d_active s) (d_per s) (d_cursor s) (d_pool s) (d_black s) (d_ref s) (d_refc s) (d_bal s).
Definition set_d_count (s : dels) (v : N) : dels :=
  Dels (d_recs s) (d_cand s) v (d_active s) (d_per s) (d_cursor s) (d_pool s) (d_black s) (d_ref s) (d_refc s) (d_bal s).
Definition set_d_active (s : dels) (v : N) : dels :=
  Dels (d_recs s) (d_cand s) (d_count s) v (d_per s) (d_cursor s) (d_pool s) (d_black s) (d_ref s) (d_refc s) (d_bal s).
Definition set_d_per (s : dels) (v : N) : dels :=
  Dels (d_recs s) (d_cand s) (d_count s) (d_active s) v (d_cursor s) (d_pool s) (d_black s) (d_ref s) (d_refc s) (d_bal s).
Definition set_d_cursor (s : dels) (v : kcursor) : dels :=
  Dels (d_recs s) (d_cand s) (d_count s) (d_active s) (d_per s) v (d_pool s) (d_black s) (d_ref s) (d_refc s) (d_bal s).
Definition set_d_pool (s : dels) (v : option N) : dels :=
  Dels (d_recs s) (d_cand s) (d_count s) (d_active s) (d_per s) (d_cursor s) v (d_black s) (d_ref s) (d_refc s) (d_bal s).
Definition set_d_black (s : dels) (v : gmap N N) : dels :=
  Dels (d_recs s) (d_cand s) (d_count s) (d_active s) (d_per s) (d_cursor s) (d_pool s) v (d_ref s) (d_refc s) (d_bal s).
Definition set_d_ref (s : dels) (v : gmap N N) : dels :=
  Dels (d_recs s) (d_cand s) (d_count s) (d_active s) (d_per s) (d_cursor s) (d_pool s) (d_black s) v (d_refc s) (d_bal s).
Definition set_d_refc (s : dels) (v : gmap N N) : dels :=
  Dels (d_recs s) (d_cand s) (d_count s) (d_active s) (d_per s) (d_cursor s) (d_pool s) (d_black s) (d_ref s) v (d_bal s).
Definition set_d_bal (s : dels) (v : gmap N N) : dels :=
  Dels (d_recs s) (d_cand s) (d_count s) (d_active s) (d_per s) (d_cursor s) (d_pool s) (d_black s) (d_ref s) (d_refc s) v.
Record kstate := KState {
  k_bank : bank;
  k_stk : stk;
  k_era : eras;
  k_par : pars;
  k_del : dels;
}.
Definition set_k_bank (s : kstate) (v : bank) : kstate :=
  KState v (k_stk s) (k_era s) (k_par s) (k_del s).
Definition set_k_stk (s : kstate) (v : stk) : kstate :=
  KState (k_bank s) v (k_era s) (k_par s) (k_del s).
Definition set_k_era (s : kstate) (v : eras) : kstate :=
  KState (k_bank s) (k_stk s) v (k_par s) (k_del s).
Definition set_k_par (s : kstate) (v : pars) : kstate :=
  KState (k_bank s) (k_stk s) (k_era s) v (k_del s).
Definition set_k_del (s : kstate) (v : dels) : kstate :=
  KState (k_bank s) (k_stk s) (k_era s) (k_par s) v.

(** Constants of the runtime: balances' existential deposit, BondingDuration,
    SlashDeferDuration, SessionsPerEra, MaxDelegates, TotalMiningReward,
    BlocksPerEra, the pallet's and the treasury's account (Slash = Treasury,
    runtime/src/lib.rs), and the order of the storage keys of Delegators and
    Validators (distinct accounts have distinct keys). *)
Record kcfg := KCfg {
  kc_ed : N; kc_bonding : N; kc_defer : N; kc_sessions : N; kc_maxdel : N; kc_total : N;
  kc_bpe : N; kc_account : N; kc_treasury : N; kc_dkey : N -> N; kc_vkey : N -> N }.

(** Surroundings. From the credit pallet: its current era, whether an account
    passes the threshold (asked after the last change of its credit in this step;
    undelegating twice is the same as once), the reward of an account for a range of
    eras, the level of its credit score, and the balances per level of the DPR and
    the USDT campaign. Then: the block number; the privileges BlackListAdmin,
    ReleaseSetter, CreditAdmin and NpowMint; the limit check of the operation pallet
    (Model_Operation.v); what other locks freeze on an account; whether an account
    may be reaped (reference counters); whether inc_consumers succeeds; whether
    the Atomos signature is valid; whether the session pallet disables a validator. *)
Record kctx := KCtx {
  kx_era : N; kx_pass : N -> bool; kx_reward : N -> N -> N -> option N;
  kx_level : N -> option N; kx_dpr : N -> list N; kx_usdt : N -> list N;
  kx_block : N; kx_black : N -> bool; kx_release : N -> bool; kx_credit : N -> bool;
  kx_npow : N -> bool; kx_limit : N -> bool; kx_other : N -> N; kx_dies : N -> bool;
  kx_consumer : N -> bool; kx_sig : N -> bool; kx_disable : N -> bool }.

(** lib.rs:2266-2330 errors. *)
Inductive kerr := KAlreadyBonded | KAlreadyPaired | KInsufficient | KBadState | KInvalidED
  | KNotStash | KNotController | KNoMoreChunks | KNoUnlockChunk | KIncorrectSpans | KFunded
  | KCallNotAllowed | KNoValidators | KTooMany | KNotValidator | KCreditTooLow | KNotDelegator
  | KUnauthorized | KLimit | KSelf | KEmptyTargets | KNotSorted | KBadIndex | KSignature
  | KNoCreditUpdate | KTargetLevel | KNoCredit | KTargetLow | KNotEnough | KBalance | KOrigin.

Inductive mkind := MValidator | MDelegator | MReferer | MComp | MNpow.
(** Events, and calls to other pallets, that properties use. [KAsk] is a call of
    credit's get_reward; [KCharge] records what compute_slash books for a report. *)
Inductive kev :=
| KMint (why : mkind) (who amount : N)
| KRaise (amount : N)                         (* IncreaseMiningReward *)
| KAsk (who from to : N)
| KUnbonded (stash value : N)                 (* Unbonded *)
| KWithdrawn (stash value : N)                (* Withdrawn *)
| KSlashed (stash value : N)                  (* Slash *)
| KBurned (controller value : N)              (* ValidatorBurned *)
| KElected (era : N) (l : list N)
| KCharge (stash era index own charged : N)
| KCreditSlash (who : N)                      (* credit's slash_credit *)
| KCreditAdd (who gap : N)                    (* credit's add_or_update_credit *)
| KStakingDelegate (who level : N).           (* StakingDelegate *)

(** lib.rs:1053-2146 dispatchables. *)
Inductive kcall :=
| KStakeDelegate (level : N)
| KUsdtDelegate (who usdt dpr : N)
| KBond (controller value : N) (dest : payee)
| KSetED (v : N)
| KBondExtra (v : N)
| KUnbond (v : N)
| KWithdraw (nspans : N)
| KValidate
| KChill
| KSetPayee (dest : payee)
| KSetController (controller : N)
| KSetReward (v : N)
| KSetCount (v : N)
| KIncCount (v : N)
| KScaleCount (percent : N)
| KForce (f : forcing)
| KSetInvul (l : list N)
| KSetWhite (l : list N)
| KForceUnstake (stash nspans : N)
| KIncrease (v : N)
| KCancel (era : N) (l : list N)
| KRebond (v : N)
| KSetDepth (v : N)
| KReap (stash nspans : N)
| KDelegate (l : list N)
| KUndelegate
| KForceUndelegate (l : list N)
| KBlackAdd (who era : N)
| KBlackRemove (who : N)
| KCompensate (who referee poc : N)
| KSetMin (v : N)
| KSetReferer (who referer : N)
| KUnsetReferer (who : N)
| KNpow (who v : N)
| KBurnStake (v : N)
| KForceUnstakingDelegate (who : N)
| KUnsetBalance (who : N).

Notation mint := Model_Operation.mint.
Notation perbill_of := Model_Adsc.perbill_of.

Section model.
  Context (cfg : kcfg).
  Local Notation ed := (kc_ed cfg).

  Definition cur_era (s : kstate) : N := default 0 (e_cur (k_era s)).
  (** [remainder_mining_reward().unwrap_or(TotalMiningReward)], e.g. lib.rs:2612. *)
  Definition pool_of (d : dels) : N := default (kc_total cfg) (d_pool d).

  (** ** Balances used here *)

  (** [Currency::slash]: takes at most the free balance, or what is above the
      existential deposit when the account may not be reaped. The bank, the amount
      taken (now the caller's), and the amount missing. *)
  Definition cslash (x : kctx) (b : bank) (who v : N) : bank * N * N :=
    if v =? 0 then (b, 0, 0) else
    let a := acct_of b who in
    if free a + rsv a =? 0 then (b, 0, v) else
    let act := N.min v (if kx_dies x who then free a else ssub (free a) ed) in
    (put ed b who (Acct (free a - act) (rsv a) (frz a)), act, v - act).

  (** [Currency::deposit_into_existing]: the bank and the amount minted. *)
  Definition mint_existing (b : bank) (who v : N) : bank * N :=
    if v =? 0 then (b, 0) else
    let a := acct_of b who in
    if is_new a then (b, 0) else
    if two128 <=? free a + v then (b, 0) else
    (put ed b who (Acct (free a + v) (rsv a) (frz a)), v).

  (** [update_locks] of the balances pallet. *)
  Definition freeze (b : bank) (who v : N) : bank :=
    let a := acct_of b who in put ed b who (Acct (free a) (rsv a) v).
  (** [LockableCurrency::set_lock] for STAKING_ID: a no-op for amount zero. *)
  Definition set_lock (x : kctx) (s : kstate) (stash v : N) : kstate :=
    if v =? 0 then s else
    set_k_stk (set_k_bank s (freeze (k_bank s) stash (N.max v (kx_other x stash))))
              (set_s_lock (k_stk s) (<[stash := v]> (s_lock (k_stk s)))).
  (** [LockableCurrency::remove_lock] for STAKING_ID. *)
  Definition remove_lock (x : kctx) (s : kstate) (stash : N) : kstate :=
    set_k_stk (set_k_bank s (freeze (k_bank s) stash (kx_other x stash)))
              (set_s_lock (k_stk s) (delete stash (s_lock (k_stk s)))).

  (** ** Bonding *)

  (** lib.rs:2476-2487 update_ledger. *)
  Definition update_ledger (x : kctx) (s : kstate) (c : N) (l : ledger) : kstate :=
    let s1 := set_lock x s (l_stash l) (l_total l) in
    set_k_stk s1 (set_s_ledger (k_stk s1) (<[c := l]> (s_ledger (k_stk s1)))).
  (** lib.rs:2490-2492 chill_stash. *)
  Definition chill_stash (k : stk) (stash : N) : stk :=
    set_s_valid k (s_valid k ∖ {[stash]}).
  (** slashing.rs:450-476 clear_stash_metadata. *)
  Definition clear_stash (k : stk) (stash nspans : N) : res kerr stk :=
    match s_spans k !! stash with
    | None => ROk k
    | Some sp =>
        _u <-? ensure (N.of_nat (length (spans_iter sp)) <=? nspans) KIncorrectSpans ;
        ROk (set_s_rec (set_s_spans k (delete stash (s_spans k)))
               (foldr (fun p m => delete (stash, sn_index p) m) (s_rec k) (spans_iter sp)))
    end.
  (** lib.rs:3000-3015 kill_stash. *)
  Definition kill_stash (k : stk) (stash nspans : N) : res kerr stk :=
    match s_bonded k !! stash with
    | None => RErr KNotStash
    | Some c =>
        k1 <-? clear_stash k stash nspans ;
        ROk (Stk (delete stash (s_bonded k1)) (delete c (s_ledger k1)) (delete stash (s_payee k1))
                 (s_valid k1 ∖ {[stash]}) (s_lock k1) (s_spans k1) (s_rec k1) (s_in_era k1)
                 (s_unapp k1) (s_first k1))
    end.
  Definition unstake (x : kctx) (s : kstate) (stash nspans : N) : res kerr kstate :=
    k <-? kill_stash (k_stk s) stash nspans ;
    ROk (remove_lock x (set_k_stk s k) stash).

  (** lib.rs:1111-1160 bond. *)
  Definition bond (x : kctx) (s : kstate) (stash c v : N) (dest : payee) : res kerr kstate :=
    let k := k_stk s in
    _u <-? ensure (negb (bool_decide (is_Some (s_bonded k !! stash)))) KAlreadyBonded ;
    _u <-? ensure (negb (bool_decide (is_Some (s_ledger k !! c)))) KAlreadyPaired ;
    _u <-? ensure (p_ed (k_par s) <=? v) KInsufficient ;
    _u <-? ensure (kx_consumer x stash) KBadState ;
    let v' := N.min v (free_of (k_bank s) stash) in
    let k1 := set_s_payee (set_s_bonded k (<[stash := c]> (s_bonded k)))
                          (<[stash := dest]> (s_payee k)) in
    ROk (update_ledger x (set_k_stk s k1) c (Ledger stash v' v' [])).
  (** lib.rs:1198-1232 bond_extra. *)
  Definition bond_extra (x : kctx) (s : kstate) (stash maxv : N) : res kerr kstate :=
    match s_bonded (k_stk s) !! stash with
    | None => RErr KNotStash
    | Some c =>
        match s_ledger (k_stk s) !! c with
        | None => RErr KNotController
        | Some l =>
            let bal := free_of (k_bank s) stash in
            if bal <? l_total l then ROk s else
            let extra := N.min (bal - l_total l) maxv in
            let l' := Ledger (l_stash l) (add128 (l_total l) extra) (add128 (l_active l) extra) (l_unl l) in
            _u <-? ensure (ed <=? l_active l') KInsufficient ;
            ROk (update_ledger x s c l')
        end
    end.
  (** lib.rs:86 MAX_UNLOCKING_CHUNKS. *)
  Definition MAX_CHUNKS : N := 32.
  (** lib.rs:1262-1298 unbond. *)
  Definition unbond (x : kctx) (s : kstate) (c v : N) : res kerr (kstate * list kev) :=
    match s_ledger (k_stk s) !! c with
    | None => RErr KNotController
    | Some l =>
        _u <-? ensure (N.of_nat (length (l_unl l)) <? MAX_CHUNKS) KNoMoreChunks ;
        let v1 := N.min v (l_active l) in
        if v1 =? 0 then ROk (s, []) else
        let a1 := l_active l - v1 in
        let '(v2, a2) := if a1 <? p_ed (k_par s) then (v1 + a1, 0) else (v1, a1) in
        let era := add32 (cur_era s) (kc_bonding cfg) in
        let l' := Ledger (l_stash l) (l_total l) a2 (l_unl l ++ [Chunk v2 era]) in
        ROk (update_ledger x s c l', [KUnbonded (l_stash l) v2])
    end.
  (** lib.rs:1331-1374 withdraw_unbonded. *)
  Definition withdraw_unbonded (x : kctx) (s : kstate) (c nspans : N)
      : res kerr (kstate * list kev) :=
    match s_ledger (k_stk s) !! c with
    | None => RErr KNotController
    | Some l0 =>
        let l := match e_cur (k_era s) with None => l0 | Some e => consolidate e l0 end in
        let ev := if l_total l <? l_total l0
                  then [KWithdrawn (l_stash l0) (l_total l0 - l_total l)] else [] in
        if bool_decide (l_unl l = []) && (l_active l <=? ed) then
          s' <-? unstake x s (l_stash l0) nspans ; ROk (s', ev)
        else ROk (update_ledger x s c l, ev)
    end.
  (** lib.rs:1483-1500 set_controller. *)
  Definition set_controller (k : stk) (stash c : N) : res kerr stk :=
    match s_bonded k !! stash with
    | None => RErr KNotStash
    | Some old =>
        _u <-? ensure (negb (bool_decide (is_Some (s_ledger k !! c)))) KAlreadyPaired ;
        if c =? old then ROk k else
        let k1 := set_s_bonded k (<[stash := c]> (s_bonded k)) in
        match s_ledger k !! old with
        | None => ROk k1
        | Some l => ROk (set_s_ledger k1 (<[c := l]> (delete old (s_ledger k))))
        end
    end.
  (** lib.rs:1763-1786 rebond. *)
  Definition do_rebond (x : kctx) (s : kstate) (c v : N) : res kerr kstate :=
    match s_ledger (k_stk s) !! c with
    | None => RErr KNotController
    | Some l =>
        _u <-? ensure (negb (bool_decide (l_unl l = []))) KNoUnlockChunk ;
        let l' := rebond v l in
        _u <-? ensure (ed <=? l_active l') KInsufficient ;
        ROk (update_ledger x s c l')
    end.
  (** lib.rs:2101-2113 validator_burn. The slashed imbalance is dropped: burnt. *)
  Definition validator_burn (x : kctx) (s : kstate) (c v : N) : res kerr (kstate * list kev) :=
    match s_ledger (k_stk s) !! c with
    | None => RErr KNotController
    | Some l =>
        let s1 := remove_lock x s (l_stash l) in
        let '(l', amount) := slash_ledger v ed l in
        let '(b, got, _) := cslash x (k_bank s1) (l_stash l) amount in
        let s2 := set_k_bank s1 (Bank (accts b) (lost b + got)) in
        ROk (update_ledger x s2 c l', [KBurned c amount])
    end.

  (** ** Delegation *)

  (** lib.rs:2417-2425 and 3099-3107: leave the sets of these validators. *)
  Definition leave1 (d : N) (m : gmap N cand) (v : N) : gmap N cand :=
    let c := default cand0 (m !! v) in
    let c' := Cand (cd_dels c ∖ {[d]}) (cd_era c) in
    if bool_decide (cd_dels c' = ∅) then delete v m else <[v := c']> m.
  Definition leave (d : N) (vs : list N) (m : gmap N cand) : gmap N cand :=
    fold_left (leave1 d) vs m.
  (** lib.rs:2441-2459: enter the sets of these validators. *)
  Definition enter1 (d : N) (m : gmap N cand) (v : N) : gmap N cand :=
    match m !! v with
    | Some c => <[v := Cand (cd_dels c ∪ {[d]}) (cd_era c)]> m
    | None => <[v := Cand {[d]} 0]> m
    end.
  Definition enter (d : N) (vs : list N) (m : gmap N cand) : gmap N cand :=
    fold_left (enter1 d) vs m.
  Definition sadd32 (a b : N) : N := sadd two32 a b.

  (** lib.rs:2394-2463 do_delegate. *)
  Definition do_delegate (x : kctx) (k : dels) (d : N) (vs : list N) : res kerr dels :=
    _u <-? ensure (kx_pass x d) KCreditTooLow ;
    let k1 :=
      match d_recs k !! d with
      | Some r =>
          let k0 := if dr_on r then k else set_d_active k (sadd32 (d_active k) 1) in
          set_d_cand (set_d_recs k0 (<[d := DRec vs (Some (default (kx_era x) (dr_since r))) true]> (d_recs k0)))
                     (leave d (dr_vals r) (d_cand k0))
      | None =>
          set_d_count
            (set_d_active (set_d_recs k (<[d := DRec vs (Some (kx_era x)) true]> (d_recs k)))
                          (sadd32 (d_active k) 1))
            (sadd32 (d_count k) 1)
      end in
    ROk (set_d_cand k1 (enter d vs (d_cand k1))).
  (** The validators by storage key, as [iter] visits them. *)
  Definition vkey_le (a b : N) : Prop := kc_vkey cfg a <= kc_vkey cfg b.
  Global Instance vkey_le_dec : RelDecision vkey_le.
  Proof. intros a b. unfold vkey_le. apply _. Defined.
  Definition validators_in_order (k : stk) : list N := merge_sort vkey_le (elements (s_valid k)).
  (** lib.rs:2385-2392 delegate_any. *)
  Definition delegate_any (x : kctx) (s : kstate) (d : N) : res kerr dels :=
    let vs := validators_in_order (k_stk s) in
    _u <-? ensure (negb (bool_decide (vs = []))) KNoValidators ;
    match vs !! N.to_nat (w64 (kx_block x) mod N.of_nat (length vs)) with
    | None => RPanic
    | Some v => do_delegate x (k_del s) d [v]
    end.
  (** lib.rs:1861-1890 delegate. *)
  Definition delegate (x : kctx) (s : kstate) (d : N) (vs : list N) : res kerr dels :=
    _u <-? ensure (negb (bool_decide (d ∈ s_valid (k_stk s)))) KCallNotAllowed ;
    _u <-? ensure (negb (bool_decide (vs = []))) KNoValidators ;
    let set : gset N := list_to_set vs in
    _u <-? ensure (N.of_nat (size set) <=? kc_maxdel cfg) KTooMany ;
    _u <-? ensure (bool_decide (set ⊆ s_valid (k_stk s))) KNotValidator ;
    do_delegate x (k_del s) d vs.
  (** lib.rs:3095-3127 _undelegate; [era] is CurrentEra of this pallet. *)
  Definition undelegate (era : N) (k : dels) (d : N) : dels :=
    match d_recs k !! d with
    | Some r =>
        if dr_on r then
          let k1 := set_d_active (set_d_cand k (leave d (dr_vals r) (d_cand k))) (ssub (d_active k) 1) in
          let gone := set_d_count (set_d_recs k1 (delete d (d_recs k))) (ssub (d_count k) 1) in
          match dr_since r with
          | Some e => if e =? era then gone
                      else set_d_recs k1 (<[d := DRec (dr_vals r) (dr_since r) false]> (d_recs k))
          | None => gone
          end
        else k
    | None => k
    end.
  Definition undelegate_in (s : kstate) (d : N) : kstate :=
    set_k_del s (undelegate (cur_era s) (k_del s) d).

  (** primitives/src/credit.rs:126-141, a number as a level; 175-179 credit_level_gap. *)
  Definition as_level (n : N) : N := let l := n mod 256 in if l <=? 8 then l else 0.
  Definition level_gap (dst cur : N) : N := 100 * (as_level dst - as_level cur).

  (** lib.rs:3142-3181 do_staking_delegate. *)
  Definition staking_delegate (x : kctx) (s : kstate) (who level : N) : res kerr (kstate * list kev) :=
    let bals := kx_dpr x who in
    _u <-? ensure (negb (bool_decide (bals = []))) KNoCreditUpdate ;
    _u <-? ensure (level <? N.of_nat (length bals)) KTargetLevel ;
    match kx_level x who with
    | None => RErr KNoCredit
    | Some cur =>
        _u <-? ensure (cur <? level) KTargetLow ;
        match bals !! N.to_nat level, bals !! N.to_nat cur with
        | Some hi, Some lo =>
            let need := ssub hi lo in
            match transfer_keep ed (k_bank s) who (kc_account cfg) need with
            | None => RErr KBalance
            | Some b =>
                let k1 := set_d_bal (k_del s)
                  (<[who := sadd two128 (default 0 (d_bal (k_del s) !! who)) need]> (d_bal (k_del s))) in
                let s1 := set_k_del (set_k_bank s b) k1 in
                k2 <-? delegate_any x s1 who ;
                ROk (set_k_del s1 k2, [KCreditAdd who (level_gap level cur); KStakingDelegate who level])
            end
        | _, _ => RPanic
        end
    end.
  (** lib.rs:3210-3219: climb while the next level is paid for. *)
  Fixpoint climb (fuel : nat) (bals : list N) (base rest dst : N) : N :=
    match fuel with
    | O => dst
    | S f =>
        if dst <? N.of_nat (length bals) - 1 then
          if ssub (default 0 (bals !! N.to_nat (dst + 1))) base <=? rest
          then climb f bals base rest (dst + 1) else dst
        else dst
    end.
  (** lib.rs:3183-3235 do_usdt_staking_delegate. *)
  Definition usdt_delegate (x : kctx) (s : kstate) (who usdt : N) : res kerr (kstate * list kev) :=
    let bals := kx_usdt x who in
    _u <-? ensure (negb (bool_decide (bals = []))) KNoCreditUpdate ;
    let low := default 0 (head bals) in
    p <-? (match kx_level x who with
           | Some cur => ROk (cur, usdt)
           | None => _u <-? ensure (low <=? usdt) KNotEnough ; ROk (0, usdt - low)
           end) ;
    let '(cur, rest) := (p : N * N) in
    let dst := climb (length bals) bals (default 0 (bals !! N.to_nat cur)) rest cur in
    let ev := [KCreditAdd who (level_gap dst cur); KStakingDelegate who dst] in
    if 0 <? dst then
      k <-? delegate_any x s who ; ROk (set_k_del s k, ev)
    else ROk (s, ev).

  (** ** Payouts *)

  (** lib.rs:2651-2674 make_validator_payout: the amount minted. *)
  Definition validator_payout (x : kctx) (s : kstate) (stash amount : N) : kstate * list kev :=
    let k := k_stk s in
    match default PStaked (s_payee k !! stash) with
    | PController =>
        match s_bonded k !! stash with
        | None => (s, [])
        | Some c => let '(b, got) := mint ed (k_bank s) c amount in
                    (set_k_bank s b, [KMint MValidator c got])
        end
    | PStash => let '(b, got) := mint_existing (k_bank s) stash amount in
                (set_k_bank s b, [KMint MValidator stash got])
    | PStaked =>
        match s_bonded k !! stash with
        | None => (s, [])
        | Some c =>
            match s_ledger k !! c with
            | None => (s, [])
            | Some l =>
                let l' := Ledger (l_stash l) (add128 (l_total l) amount) (add128 (l_active l) amount) (l_unl l) in
                let '(b, got) := mint_existing (k_bank s) stash amount in
                (update_ledger x (set_k_bank s b) c l', [KMint MValidator stash got])
            end
        end
    | PAccount a => let '(b, got) := mint ed (k_bank s) a amount in
                    (set_k_bank s b, [KMint MValidator a got])
    end.
  (** lib.rs:2621-2642 the loop of pay_validators. *)
  Fixpoint pay_each (x : kctx) (pts : N * gmap N N) (payout : N) (vs : list N) (s : kstate) (total : N)
      : kstate * N * list kev :=
    match vs with
    | [] => (s, total, [])
    | v :: r =>
        let p := default 0 (pts.2 !! v) in
        if p =? 0 then pay_each x pts payout r s total else
        let amount := frac_mul (perbill_of p pts.1) PERBILL payout in
        let '(s1, e1) := validator_payout x s v amount in
        let '(s2, total2, e2) := pay_each x pts payout r s1 (add128 total amount) in
        (s2, total2, e1 ++ e2)
    end.
  (** lib.rs:2610-2648 pay_validators. *)
  Definition pay_validators (x : kctx) (s : kstate) (era : N) : kstate * list kev :=
    let pool := pool_of (k_del s) in
    if pool =? 0 then (s, []) else
    let payout := N.min (p_reward (k_par s)) pool in
    let pts := default (0, ∅) (e_points (k_era s) !! era) in
    let '(s1, total, ev) := pay_each x pts payout (default [] (e_vals (k_era s) !! era)) s 0 in
    (set_k_del s1 (set_d_pool (k_del s1) (Some (ssub pool total))), ev).

  (** lib.rs:2369-2379 get_referel_bonus_rate, parts per billion. *)
  Definition bonus_rate (n : N) : option N :=
    if n =? 0 then None else
    if n <=? 20 then Some 50000000 else
    if n <=? 50 then Some 60000000 else
    if n <=? 100 then Some 75000000 else
    if n <=? 200 then Some 90000000 else Some 120000000.

  (** lib.rs:2740-2807 pay_delegator: what is deducted from the pool. *)
  Definition pay_delegator (x : kctx) (s : kstate) (d : N) (r : drec) (pool : N)
      : kstate * N * list kev :=
    let era := kx_era x in
    let since := default era (dr_since r) in
    if since =? era then (s, 0, []) else
    let to := sub32 era 1 in
    let '(b, payout, ev) :=
      match kx_reward x d since to with
      | None => (k_bank s, 0, [])
      | Some poc =>
          let reward := if era <=? default 0 (d_black (k_del s) !! d) then 0 else N.min pool poc in
          let '(b, got) := mint ed (k_bank s) d reward in
          (b, reward, [KMint MDelegator d got])
      end in
    let k := k_del s in
    let k' := if dr_on r then set_d_recs k (<[d := DRec (dr_vals r) (Some era) (dr_on r)]> (d_recs k))
              else set_d_count (set_d_recs k (delete d (d_recs k))) (ssub (d_count k) 1) in
    (set_k_del (set_k_bank s b) k', payout, KAsk d since to :: ev).
  (** lib.rs:2809-2857 pay_referer. *)
  Definition pay_referer (s : kstate) (d reward pool : N) : kstate * N * list kev :=
    match d_ref (k_del s) !! d with
    | None => (s, 0, [])
    | Some ref =>
        match bonus_rate (default 0 (d_refc (k_del s) !! ref)) with
        | None => (s, 0, [])
        | Some rate =>
            let payout := N.min pool (frac_mul rate PERBILL reward) in
            let '(b, got) := mint ed (k_bank s) ref payout in
            (set_k_bank s b, payout, [KMint MReferer ref got])
        end
    end.

  (** The delegators behind the cursor by storage key, as [next_key] visits them;
      the loop changes only entries it has reached. An unset cursor (and prefix)
      occurs only while DelegatorPayoutsPerBlock is 0, so the loop does not run. *)
  Definition beyond (c : kcursor) (k : N) : bool :=
    match c with CUnset => true | CPrefix => true | CKey k0 => k0 <? k end.
  Definition dkey_le (p q : N * drec) : Prop := kc_dkey cfg p.1 <= kc_dkey cfg q.1.
  Global Instance dkey_le_dec : RelDecision dkey_le.
  Proof. intros p q. unfold dkey_le. apply _. Defined.
  Definition delegators_from (k : dels) (c : kcursor) : list (N * drec) :=
    filter (fun p => beyond c (kc_dkey cfg p.1) = true) (merge_sort dkey_le (map_to_list (d_recs k))).

  (** lib.rs:2700-2726 the loop: state, pool, last key, rounds counted. *)
  Fixpoint pay_loop (x : kctx) (n : nat) (l : list (N * drec)) (s : kstate) (pool : N) (last : kcursor)
      (counter : N) : kstate * N * kcursor * N * list kev :=
    match n, l with
    | S m, (d, r) :: rest =>
        let '(s1, paid, e1) := pay_delegator x s d r pool in
        let pool1 := ssub pool paid in
        if pool1 =? 0 then (s1, pool1, last, counter, e1) else
        let '(s2, paid2, e2) := pay_referer s1 d paid pool1 in
        let pool2 := ssub pool1 paid2 in
        if pool2 =? 0 then (s2, pool2, last, counter, e1 ++ e2) else
        let '(s3, pool3, last3, counter3, e3) :=
          pay_loop x m rest s2 pool2 (CKey (kc_dkey cfg d)) (counter + 1) in
        (s3, pool3, last3, counter3, e1 ++ e2 ++ e3)
    | _, _ => (s, pool, last, counter, [])
    end.
  (** lib.rs:2676-2738 pay_delegators. *)
  Definition pay_delegators (x : kctx) (s : kstate) : kstate * list kev :=
    let pool := pool_of (k_del s) in
    if pool =? 0 then (s, []) else
    let per := d_per (k_del s) in
    let '(s1, pool1, last, counter, ev) :=
      pay_loop x (N.to_nat per) (delegators_from (k_del s) (d_cursor (k_del s))) s pool
        (d_cursor (k_del s)) 0 in
    let k1 := if counter =? per then set_d_cursor (k_del s1) last else k_del s1 in
    (set_k_del s1 (set_d_pool k1 (Some pool1)), ev).
  (** lib.rs:2150-2181 on_initialize. Panics on division by zero. *)
  Definition on_initialize (x : kctx) (s : kstate) : res kerr (kstate * list kev) :=
    if 0 <? cur_era s then
      if kx_block x mod kc_bpe cfg =? 0 then
        let n := sub32 (w32 (kc_bpe cfg)) 2 in
        if n =? 0 then RPanic else
        let per := add32 (sub32 (add32 (d_count (k_del s)) n) 1 / n) 1 in
        ROk (set_k_del s (set_d_cursor (set_d_per (k_del s) per) CPrefix), [])
      else ROk (pay_delegators x s)
    else ROk (s, []).

  (** lib.rs:1954-2009 difference_compensation. *)
  Definition compensate (x : kctx) (s : kstate) (who referee poc : N) : res kerr (kstate * list kev) :=
    let pool := pool_of (k_del s) in
    let reward := N.min pool (add128 referee poc) in
    _u <-? ensure (kx_limit x reward) KLimit ;
    let '(b, got) := mint ed (k_bank s) who reward in
    ROk (set_k_del (set_k_bank s b) (set_d_pool (k_del s) (Some (ssub pool reward))),
         [KMint MComp who got]).
  (** lib.rs:2069-2098 npow_mint. *)
  Definition npow_mint (s : kstate) (who v : N) : res kerr (kstate * list kev) :=
    let pool := pool_of (k_del s) in
    _u <-? ensure (v <=? pool) KInsufficient ;
    let '(b, got) := mint ed (k_bank s) who v in
    ROk (set_k_del (set_k_bank s b) (set_d_pool (k_del s) (Some (ssub pool v))),
         [KMint MNpow who got]).

  (** lib.rs:2021-2045 set_user_referer and 2048-2066 unset_user_referer. *)
  Definition bump (m : gmap N N) (a : N) : gmap N N := <[a := sadd32 (default 0 (m !! a)) 1]> m.
  Definition drop1 (m : gmap N N) (a : N) : gmap N N := <[a := ssub (default 0 (m !! a)) 1]> m.
  Definition set_referer (k : dels) (who ref : N) : res kerr dels :=
    _u <-? ensure (negb (who =? ref)) KSelf ;
    let c1 := bump (d_refc k) ref in
    let c2 := match d_ref k !! who with Some old => drop1 c1 old | None => c1 end in
    ROk (set_d_refc (set_d_ref k (<[who := ref]> (d_ref k))) c2).
  Definition unset_referer (k : dels) (who : N) : dels :=
    match d_ref k !! who with
    | Some old => set_d_refc (set_d_ref k (delete who (d_ref k))) (drop1 (d_refc k) old)
    | None => k
    end.

  (** ** Slashing *)

  (** slashing.rs:331-343 fetch_spans: also stores a fresh record. *)
  Definition fetch_spans (k : stk) (stash window : N) : stk * spans :=
    match s_spans k !! stash with
    | Some sp => (k, sp)
    | None => let sp := spans_new window in
              (set_s_spans k (<[stash := sp]> (s_spans k)), sp)
    end.
  (** lib.rs:3069-3074 ensure_new_era. *)
  Definition ensure_new_era (e : eras) : eras :=
    match e_force e with ForceAlways | ForceNew => e | _ => set_e_force e ForceNew end.
  (** slashing.rs:427-441 Drop for InspectingSpans. *)
  Definition close_spans (k : stk) (stash window : N) (dirty : bool) (sp : spans) : stk :=
    if dirty then
      let '(sp', pruned) := prune window sp in
      let rec' := match pruned with
                  | Some (a, b) => foldr (fun i m => delete (stash, a + N.of_nat i) m) (s_rec k)
                                         (seq 0 (N.to_nat (b - a)))
                  | None => s_rec k
                  end in
      set_s_spans (set_s_rec k rec') (<[stash := sp']> (s_spans k))
    else k.
  (** slashing.rs:39 REWARD_F1, parts per billion. *)
  Definition REWARD_F1 : N := 500000000.
  (** slashing.rs:382-424 compare_and_update_span_slash: records, spans, dirty, the
      slash and the reward added, and the index of the span. *)
  Definition update_span (k : stk) (stash : N) (sp : spans) (frac era own : N)
      : stk * spans * bool * N * N * option N :=
    match era_span sp era with
    | None => (k, sp, false, 0, 0, None)
    | Some t =>
        let '(slashed, paid) := default (0, 0) (s_rec k !! (stash, sn_index t)) in
        let pay := frac_mul REWARD_F1 PERBILL (ssub (frac_mul frac PERBILL own) paid) in
        let '(slashed1, diff, sp1, reward, ch1) :=
          if slashed <? own then
            (own, own - slashed,
             Spans (sp_index sp) (sp_start sp) (N.max (sp_last sp) era) (sp_prior sp), pay, true)
          else if slashed =? own then (slashed, 0, sp, pay, false)
          else (slashed, 0, sp, 0, false) in
        let changed := ch1 || negb (reward =? 0) in
        let k1 := if changed
                  then set_s_rec k (<[(stash, sn_index t) := (slashed1, add128 paid reward)]> (s_rec k))
                  else k in
        (k1, sp1, changed, diff, reward, Some (sn_index t))
    end.
  (** slashing.rs:260-274 and 300-309: an offence in the current span. *)
  Definition kick (x : kctx) (k : stk) (e : eras) (stash now : N) (sp : spans) (dirty : bool)
      : stk * eras * spans * bool :=
    let '(sp1, ended) := end_span now sp in
    (chill_stash k stash, if kx_disable x stash then ensure_new_era e else e, sp1, ended || dirty).
  (** slashing.rs:288-310 kick_out_if_recent. *)
  Definition kick_out (x : kctx) (s : kstate) (stash era window now : N) : kstate :=
    let '(k0, sp) := fetch_spans (k_stk s) stash window in
    match era_span sp era with
    | Some t =>
        if sn_index t =? sp_index sp then
          let '(k1, e1, sp1, dirty) := kick x k0 (k_era s) stash now sp false in
          set_k_era (set_k_stk s (close_spans k1 stash window dirty sp1)) e1
        else set_k_stk s k0
    | None => set_k_stk s k0
    end.
  (** slashing.rs:205-284 compute_slash. *)
  Definition compute_slash (x : kctx) (s : kstate) (stash slash : N) (ex : expo) (era window now : N)
      : kstate * option uslash * list kev :=
    let own := frac_mul slash PERBILL (x_own ex) in
    if frac_mul slash PERBILL (x_total ex) =? 0 then (kick_out x s stash era window now, None, []) else
    let prior := (default (0, 0) (s_in_era (k_stk s) !! (era, stash))).1 in
    if slash <=? prior then (s, None, []) else
    let k := set_s_in_era (k_stk s) (<[(era, stash) := (slash, own)]> (s_in_era (k_stk s))) in
    let '(k0, sp) := fetch_spans k stash window in
    let '(k1, sp1, dirty, diff, reward, target) := update_span k0 stash sp (p_frac (k_par s)) era own in
    let '(k2, e2, sp2, dirty2) :=
      if bool_decide (target = Some (sp_index sp1)) then kick x k1 (k_era s) stash now sp1 dirty
      else (k1, k_era s, sp1, dirty) in
    (set_k_era (set_k_stk s (close_spans k2 stash window dirty2 sp2)) e2,
     Some (USlash stash diff (x_others ex) [] reward),
     match target with Some i => [KCharge stash era i own diff] | None => [] end).

  (** slashing.rs:481-513 do_slash: the reward left and the slashed imbalance. *)
  Definition do_slash (x : kctx) (s : kstate) (stash value pay : N) : kstate * N * N * list kev :=
    match s_bonded (k_stk s) !! stash with
    | None => (s, pay, 0, [])
    | Some c =>
        match s_ledger (k_stk s) !! c with
        | None => (s, pay, 0, [])
        | Some l =>
            let '(l', v) := slash_ledger value ed l in
            if v =? 0 then (s, pay, 0, []) else
            let '(b, got, missing) := cslash x (k_bank s) stash v in
            (update_ledger x (set_k_bank s b) c l', ssub pay missing, got, [KSlashed stash v])
        end
    end.
  (** slashing.rs:515-520 do_credit_slash. *)
  Definition credit_slash (x : kctx) (s : kstate) (d : N) : kstate :=
    if kx_pass x d then s else undelegate_in s d.
  (** slashing.rs:559-566: each reporter gets the same share. *)
  Fixpoint pay_reps (b : bank) (l : list N) (each have : N) : bank * N :=
    match l with
    | [] => (b, have)
    | r :: rest => let got := N.min each have in
                   pay_reps (deposit_creating ed b r got) rest each (have - got)
    end.
  (** slashing.rs:542-571 pay_reporters. The treasury takes the rest
      (resolve_creating). *)
  Definition pay_reporters (b : bank) (pay slashed : N) (l : list N) : bank :=
    if (pay =? 0) || bool_decide (l = []) then deposit_creating ed b (kc_treasury cfg) slashed else
    let rew := N.min pay slashed in
    let '(b1, have) := pay_reps b l (rew / N.of_nat (length l)) rew in
    deposit_creating ed b1 (kc_treasury cfg) (slashed - rew + have).
  (** slashing.rs:523-539 apply_slash. *)
  Definition apply_slash (x : kctx) (s : kstate) (u : uslash) : kstate * list kev :=
    let '(s1, pay, got, ev) := do_slash x s (u_val u) (u_own u) (u_pay u) in
    let s2 := fold_left (credit_slash x) (u_others u) s1 in
    (set_k_bank s2 (pay_reporters (k_bank s2) pay got (u_reps u)), ev ++ map KCreditSlash (u_others u)).
  Fixpoint apply_list (x : kctx) (l : list uslash) (s : kstate) : kstate * list kev :=
    match l with
    | [] => (s, [])
    | u :: r => let '(s1, e1) := apply_slash x s u in
                let '(s2, e2) := apply_list x r s1 in (s2, e1 ++ e2)
    end.
  (** lib.rs:3032-3037: take and apply the slashes of each era of the range. *)
  Fixpoint apply_eras (x : kctx) (n : nat) (era : N) (s : kstate) : kstate * list kev :=
    match n with
    | O => (s, [])
    | S m =>
        let l := default [] (s_unapp (k_stk s) !! era) in
        let s0 := set_k_stk s (set_s_unapp (k_stk s) (delete era (s_unapp (k_stk s)))) in
        let '(s1, e1) := apply_list x l s0 in
        let '(s2, e2) := apply_eras x m (era + 1) s1 in (s2, e1 ++ e2)
    end.
  (** lib.rs:3027-3043 apply_unapplied_slashes. *)
  Definition apply_unapplied (x : kctx) (s : kstate) (active : N) : kstate * list kev :=
    match s_first (k_stk s) with
    | None => (s, [])
    | Some first =>
        let keep := ssub active (kc_defer cfg) in
        let '(s1, ev) := apply_eras x (N.to_nat (keep - first)) first s in
        (set_k_stk s1 (set_s_first (k_stk s1) (Some (N.max first keep))), ev)
    end.

  (** lib.rs:3394-3410: the era of an offence, by its session. *)
  Definition slash_era (e : eras) (active session : N) : option N :=
    if default 0 (e_start e !! active) <=? session then Some active
    else fst <$> List.find (fun p => snd p <=? session) (rev (e_bonded e)).
  (** lib.rs:3427-3472 one offender: account, exposure, reporters, fraction. *)
  Definition offender1 (x : kctx) (era window active : N) (p : kstate * list kev)
      (o : N * expo * list N * N) : kstate * list kev :=
    let '(s, ev) := p in
    let '(stash, ex, reps, frac) := o in
    if bool_decide (stash ∈ p_invul (k_par s)) then (s, ev) else
    let '(s1, u, e1) := compute_slash x s stash frac ex era window active in
    match u with
    | None => (s1, ev ++ e1)
    | Some u0 =>
        let u1 := USlash (u_val u0) (u_own u0) (u_others u0) reps (u_pay u0) in
        if kc_defer cfg =? 0 then let '(s2, e2) := apply_slash x s1 u1 in (s2, ev ++ e1 ++ e2)
        else
          let m := s_unapp (k_stk s1) in
          (set_k_stk s1 (set_s_unapp (k_stk s1) (<[active := default [] (m !! active) ++ [u1]]> m)),
           ev ++ e1)
    end.
  (** lib.rs:3353-3476 on_offence. *)
  Definition on_offence (x : kctx) (s : kstate) (os : list (N * expo * list N * N)) (session : N)
      : kstate * list kev :=
    match e_act (k_era s) with
    | None => (s, [])
    | Some (active, _) =>
        match slash_era (k_era s) active session with
        | None => (s, [])
        | Some era =>
            let k := match s_first (k_stk s) with
                     | None => set_s_first (k_stk s) (Some active)
                     | Some _ => k_stk s
                     end in
            fold_left (offender1 x era (ssub active (kc_bonding cfg)) active) os (set_k_stk s k, [])
        end
    end.

  (** lib.rs:3514-3516 is_sorted_and_unique. *)
  Fixpoint sorted_unique (l : list N) : bool :=
    match l with
    | a :: ((b :: _) as r) => (a <? b) && sorted_unique r
    | _ => true
    end.
  (** lib.rs:1738-1741 the removals; None is a panic of Vec::remove. *)
  Fixpoint remove_at (l : list uslash) (idx : list N) (removed : N) : option (list uslash) :=
    match idx with
    | [] => Some l
    | i :: r =>
        let j := sub64 i removed in
        if j <? N.of_nat (length l)
        then remove_at (take (N.to_nat j) l ++ drop (S (N.to_nat j)) l) r (removed + 1)
        else None
    end.
  (** lib.rs:1718-1743 cancel_deferred_slash. *)
  Definition cancel (k : stk) (era : N) (idx : list N) : res kerr stk :=
    _u <-? ensure (negb (bool_decide (idx = []))) KEmptyTargets ;
    _u <-? ensure (sorted_unique idx) KNotSorted ;
    let l := default [] (s_unapp k !! era) in
    _u <-? ensure (List.last idx 0 <? N.of_nat (length l)) KBadIndex ;
    match remove_at l idx 0 with
    | None => RPanic
    | Some l' => ROk (set_s_unapp k (<[era := l']> (s_unapp k)))
    end.

  (** ** Eras and elections *)

  (** lib.rs:3017-3024 clear_era_information, for each era from [a] to below [b]. *)
  Definition keep_out (a b e : N) : Prop := e < a \/ b <= e.
  Global Instance keep_out_dec a b e : Decision (keep_out a b e).
  Proof. unfold keep_out. apply _. Defined.
  Definition clear_eras (e : eras) (a b : N) : eras :=
    Eras (e_cur e) (e_act e)
         (filter (fun p => keep_out a b p.1) (e_start e)) (e_bonded e) (e_force e)
         (filter (fun p => keep_out a b p.1) (e_vals e))
         (filter (fun p => keep_out a b p.1.1) (e_stakers e))
         (filter (fun p => keep_out a b p.1) (e_points e))
         (filter (fun p => keep_out a b p.1) (e_stake e)).

  (** lib.rs:2897-2900 trusted_validator. *)
  Definition trusted (p : pars) (v : N) : bool :=
    bool_decide (v ∈ p_white p) || bool_decide (p_white p = []).
  (** lib.rs:2985-2991 compare, as the order "not greater". *)
  Definition rank := (N * N * N)%type. (* validator, number of delegators, elected era *)
  Definition rank_le (a b : rank) : Prop :=
    a.2 < b.2 \/ (a.2 = b.2 /\ b.1.2 <= a.1.2).
  Global Instance rank_le_dec : RelDecision rank_le.
  Proof. intros a b. unfold rank_le. apply _. Defined.
  Definition cand_of (k : dels) (v : N) : cand := default cand0 (d_cand k !! v).
  Definition rank_of (k : dels) (v : N) : rank :=
    (v, w32 (N.of_nat (size (cd_dels (cand_of k v)))), cd_era (cand_of k v)).
  Definition active_stake (k : stk) (v : N) : N :=
    match s_bonded k !! v with
    | Some c => match s_ledger k !! c with Some l => l_active l | None => 0 end
    | None => 0
    end.
  (** [sort_by] of Rust is stable: so is insertion sort from the right. *)
  Fixpoint rins (a : rank) (l : list rank) : list rank :=
    match l with
    | [] => [a]
    | b :: r => if decide (rank_le a b) then a :: l else b :: rins a r
    end.
  Definition rsort (l : list rank) : list rank := foldr rins [] l.
  (** lib.rs:2911-2983 elect. *)
  Definition elect (s : kstate) (era : N) : kstate * option (list N) :=
    let k := k_del s in
    let vs := map (rank_of k) (List.filter (trusted (k_par s)) (validators_in_order (k_stk s))) in
    if N.of_nat (length vs) <? N.max (p_min (k_par s)) 1 then (s, None) else
    let sorted := rsort vs in
    let truncated := p_count (k_par s) <? N.of_nat (length vs) in
    let el := map (fun r => r.1.1) (take (N.to_nat (p_count (k_par s))) sorted) in
    let cand' := fold_left (fun m v => <[v := Cand (cd_dels (default cand0 (m !! v))) (add32 era 1)]> m)
                           el (d_cand k) in
    let k' := set_d_cand k cand' in
    let ex v := Expo (active_stake (k_stk s) v) (active_stake (k_stk s) v)
                     (if truncated then elements (cd_dels (cand_of k' v)) else []) in
    let e' := set_e_stake
      (set_e_stakers (k_era s) (fold_left (fun m v => <[(era, v) := ex v]> m) el (e_stakers (k_era s))))
      (<[era := fold_left (fun t v => sadd two128 t (active_stake (k_stk s) v)) el 0]> (e_stake (k_era s))) in
    (set_k_era (set_k_del s k') e', Some el).
  (** lib.rs:2868-2888 new_era. *)
  Definition new_era (s : kstate) (session : N) : kstate * list kev :=
    let era := match e_cur (k_era s) with Some e => add32 e 1 | None => 0 end in
    let e1 := set_e_start (set_e_cur (k_era s) (Some era)) (<[era := session]> (e_start (k_era s))) in
    let d := add32 (p_depth (k_par s)) 1 in
    let e2 := if d <=? era then clear_eras e1 (era - d) (era - d + 1) else e1 in
    match elect (set_k_era s e2) era with
    | (s1, None) => (s1, [])
    | (s1, Some l) => (set_k_era s1 (set_e_vals (k_era s1) (<[era := l]> (e_vals (k_era s1)))), [KElected era l])
    end.
  (** lib.rs:2495-2533 new_session. *)
  Definition new_session (s : kstate) (session : N) : kstate * list kev :=
    match e_cur (k_era s) with
    | None => new_era s session
    | Some e =>
        let len := ssub session (default 0 (e_start (k_era s) !! e)) in
        match e_force (k_era s) with
        | ForceNew => new_era (set_k_era s (set_e_force (k_era s) NotForcing)) session
        | ForceAlways => new_era s session
        | NotForcing => if kc_sessions cfg <=? len then new_era s session else (s, [])
        | ForceNone => (s, [])
        end
    end.
  (** lib.rs:2570-2607 start_era. *)
  Definition start_era (x : kctx) (s : kstate) (session : N) : kstate * list kev :=
    let active := match e_act (k_era s) with Some (i, _) => add32 i 1 | None => 0 end in
    let bonded := e_bonded (k_era s) ++ [(active, session)] in
    let first := active - kc_bonding cfg in
    let fix old (l : list (N * N)) : list N :=
      match l with p :: r => if p.1 <? first then p.1 :: old r else [] | [] => [] end in
    let gone := if kc_bonding cfg <? active then old bonded else [] in
    let e' := set_e_bonded (set_e_act (k_era s) (Some (active, false))) (drop (length gone) bonded) in
    let k' := set_s_in_era (k_stk s) (filter (fun p => p.1.1 ∉ gone) (s_in_era (k_stk s))) in
    apply_unapplied x (set_k_era (set_k_stk s k') e') active.
  (** lib.rs:2535-2553 start_session. *)
  Definition start_session (x : kctx) (s : kstate) (session : N) : kstate * list kev :=
    let next := match e_act (k_era s) with Some (i, _) => add32 i 1 | None => 0 end in
    match e_start (k_era s) !! next with
    | Some st => if st <=? session then start_era x s session else (s, [])
    | None => (s, [])
    end.
  (** lib.rs:2555-2568 end_session and 2860-2865 end_era. *)
  Definition end_session (x : kctx) (s : kstate) (session : N) : kstate * list kev :=
    match e_act (k_era s) with
    | Some (i, started) =>
        match e_start (k_era s) !! add32 i 1 with
        | Some st => if (st =? add32 session 1) && started then pay_validators x s i else (s, [])
        | None => (s, [])
        end
    | None => (s, [])
    end.
  (** lib.rs:3056-3066 reward_by_ids and 3305-3307 note_author. *)
  Definition note_author (s : kstate) (a : N) : kstate :=
    match e_act (k_era s) with
    | None => s
    | Some (i, _) =>
        let '(t, m) := default (0, ∅) (e_points (k_era s) !! i) in
        set_k_era s (set_e_points (k_era s)
          (<[i := (add32 t 20, <[a := add32 (default 0 (m !! a)) 20]> m)]> (e_points (k_era s))))
    end.
  (** lib.rs:2183-2195 on_finalize. *)
  Definition on_finalize (s : kstate) : kstate :=
    match e_act (k_era s) with
    | Some (i, false) => set_k_era s (set_e_act (k_era s) (Some (i, true)))
    | _ => s
    end.

  (** ** Calls *)

  Definition signed {A} (o : origin) (f : N -> res kerr A) : res kerr A :=
    match o with Signed w => f w | _ => RErr KOrigin end.
  Definition root {A} (o : origin) (r : res kerr A) : res kerr A :=
    match o with Root => r | _ => RErr KOrigin end.
  Definition quiet (r : res kerr kstate) : res kerr (kstate * list kev) := s <-? r ; ROk (s, []).
  Definition admin {A} (p : N -> bool) (o : origin) (r : res kerr A) : res kerr A :=
    signed o (fun w => _u <-? ensure (p w) KUnauthorized ; r).
  Definition with_par (s : kstate) (p : pars) : res kerr (kstate * list kev) := ROk (set_k_par s p, []).
  Definition with_del (s : kstate) (r : res kerr dels) : res kerr (kstate * list kev) :=
    k <-? r ; ROk (set_k_del s k, []).
  Definition with_stk (s : kstate) (r : res kerr stk) : res kerr (kstate * list kev) :=
    k <-? r ; ROk (set_k_stk s k, []).
  (** The stash of the signing controller. *)
  Definition controlled {A} (s : kstate) (o : origin) (f : N -> res kerr A) : res kerr A :=
    signed o (fun c => match s_ledger (k_stk s) !! c with
                       | None => RErr KNotController
                       | Some l => f (l_stash l)
                       end).

  (** lib.rs:1053-2146. [KForce] stands for force_no_eras,
      force_new_era and force_new_era_always. SlashCancelOrigin of cancel_deferred_slash is modelled as
      Root (the runtime also admits a council majority). *)
  Definition dispatch (x : kctx) (s : kstate) (o : origin) (c : kcall) : res kerr (kstate * list kev) :=
    let p := k_par s in
    match c with
    | KStakeDelegate level =>
        signed o (fun w => _u <-? ensure (kx_sig x w) KSignature ; staking_delegate x s w level)
    | KUsdtDelegate who usdt _ => admin (kx_credit x) o (usdt_delegate x s who usdt)
    | KBond ct v dest => signed o (fun w => quiet (bond x s w ct v dest))
    | KSetED v => root o (_u <-? ensure (ed <=? v) KInvalidED ; with_par s (set_p_ed p v))
    | KBondExtra v => signed o (fun w => quiet (bond_extra x s w v))
    | KUnbond v => signed o (fun w => unbond x s w v)
    | KWithdraw n => signed o (fun w => withdraw_unbonded x s w n)
    | KValidate => controlled s o (fun st =>
        ROk (set_k_stk s (set_s_valid (k_stk s) (s_valid (k_stk s) ∪ {[st]})), []))
    | KChill => controlled s o (fun st => ROk (set_k_stk s (chill_stash (k_stk s) st), []))
    | KSetPayee dest => controlled s o (fun st =>
        ROk (set_k_stk s (set_s_payee (k_stk s) (<[st := dest]> (s_payee (k_stk s)))), []))
    | KSetController ct => signed o (fun w => with_stk s (set_controller (k_stk s) w ct))
    | KSetReward v => root o (with_par s (set_p_reward p v))
    | KSetCount v => root o (with_par s (set_p_count p v))
    | KIncCount v => root o (with_par s (set_p_count p (add32 (p_count p) v)))
    | KScaleCount f => root o (with_par s (set_p_count p (add32 (p_count p) (frac_mul f PERCENT (p_count p)))))
    | KForce f => root o (ROk (set_k_era s (set_e_force (k_era s) f), []))
    | KSetInvul l => root o (with_par s (set_p_invul p l))
    | KSetWhite l => root o (with_par s (set_p_white p l))
    | KForceUnstake st n => root o (quiet (unstake x s st n))
    | KIncrease v => root o (ROk (set_k_del s (set_d_pool (k_del s) (Some (add128 (pool_of (k_del s)) v))), [KRaise v]))
    | KCancel era l => root o (with_stk s (cancel (k_stk s) era l))
    | KRebond v => signed o (fun w => quiet (do_rebond x s w v))
    | KSetDepth v => root o
        match e_cur (k_era s) with
        | None => ROk (s, [])
        | Some e => ROk (set_k_par (set_k_era s (clear_eras (k_era s) (ssub e (p_depth p)) (ssub e v)))
                                   (set_p_depth p v), [])
        end
    | KReap st n =>
        let a := acct_of (k_bank s) st in
        _u <-? ensure (free a + rsv a =? ed) KFunded ; quiet (unstake x s st n)
    | KDelegate l => signed o (fun w => with_del s (delegate x s w l))
    | KUndelegate => signed o (fun w =>
        _u <-? ensure (bool_decide (is_Some (d_recs (k_del s) !! w))) KNotDelegator ;
        ROk (undelegate_in s w, []))
    | KForceUndelegate l => root o (ROk (fold_left undelegate_in l s, map KCreditSlash l))
    | KBlackAdd who era => admin (kx_black x) o
        (with_del s (ROk (set_d_black (k_del s) (<[who := era]> (d_black (k_del s))))))
    | KBlackRemove who => admin (kx_black x) o
        (with_del s (ROk (set_d_black (k_del s) (delete who (d_black (k_del s))))))
    | KCompensate who r poc => admin (kx_release x) o (compensate x s who r poc)
    | KSetMin v => root o (with_par s (set_p_min p v))
    | KSetReferer who r => admin (kx_credit x) o (with_del s (set_referer (k_del s) who r))
    | KUnsetReferer who => admin (kx_credit x) o (with_del s (ROk (unset_referer (k_del s) who)))
    | KNpow who v => admin (kx_npow x) o (npow_mint s who v)
    | KBurnStake v => signed o (fun w => validator_burn x s w v)
    | KForceUnstakingDelegate who => admin (kx_credit x) o (ROk (undelegate_in s who, [KCreditSlash who]))
    | KUnsetBalance who => admin (kx_credit x) o
        (with_del s (ROk (set_d_bal (k_del s) (delete who (d_bal (k_del s))))))
    end.

  (** What the chain can do: a call (transactional), the hooks of the pallet, the
      session manager, the authorship and offence handlers, and any change of
      balances by other pallets. *)
  Inductive kop :=
  | KCall (x : kctx) (o : origin) (c : kcall)
  | KInit (x : kctx)
  | KFinal
  | KNewSession (i : N)
  | KStartSession (x : kctx) (i : N)
  | KEndSession (x : kctx) (i : N)
  | KAuthor (a : N)
  | KOffence (x : kctx) (os : list (N * expo * list N * N)) (session : N)
  | KBank (b : bank).
  Inductive kout := KDone (ev : list kev) | KFail (e : kerr) | KPanic.
  Definition settle (s : kstate) (r : res kerr (kstate * list kev)) : kstate * kout :=
    match r with
    | ROk (s', ev) => (s', KDone ev)
    | RErr e => (s, KFail e)
    | RPanic => (s, KPanic)
    end.
  Definition kstep (s : kstate) (op : kop) : kstate * kout :=
    match op with
    | KCall x o c => settle s (dispatch x s o c)
    | KInit x => settle s (on_initialize x s)
    | KFinal => (on_finalize s, KDone [])
    | KNewSession i => settle s (ROk (new_session s i))
    | KStartSession x i => settle s (ROk (start_session x s i))
    | KEndSession x i => settle s (ROk (end_session x s i))
    | KAuthor a => (note_author s a, KDone [])
    | KOffence x os i => settle s (ROk (on_offence x s os i))
    | KBank b => (set_k_bank s b, KDone [])
    end.
  Fixpoint krun (s : kstate) (h : list kop) : kstate :=
    match h with [] => s | op :: r => krun (kstep s op).1 r end.
  Fixpoint kouts (s : kstate) (h : list kop) : list kout :=
    match h with [] => [] | op :: r => (kstep s op).2 :: kouts (kstep s op).1 r end.

  (** Genesis, lib.rs:1009-1046, without stakers and delegations: those are calls of
      bond, validate and delegate and belong to the history. *)
  Definition kgenesis (b : bank) (p : pars) : kstate :=
    KState b (Stk ∅ ∅ ∅ ∅ ∅ ∅ ∅ ∅ ∅ None)
           (Eras None None ∅ [] NotForcing ∅ ∅ ∅ ∅) p
           (Dels ∅ ∅ 0 0 0 CUnset None ∅ ∅ ∅ ∅).
End model.
