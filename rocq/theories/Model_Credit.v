(** Model of /repo/pallets/credit/src/lib.rs, credit_setting.rs and
    /repo/primitives/src/credit.rs. Weights, log lines and events are left out.
    Credit levels Zero..Eight are the numbers 0..8. *)
From Verif Require Import Base Balances Model_UserPrivileges.
From stdpp Require Import gmap.
Open Scope N_scope.

(** primitives/src/credit.rs:60-68 CreditData. *)
Record cdata := CData {
  cd_camp : N;      (* campaign_id: u16 *)
  cd_credit : N;    (* credit: u64 *)
  cd_init : N;      (* initial_credit_level *)
  cd_rank : N;      (* rank_in_initial_credit_level: u32 *)
  cd_refs : N;      (* number_of_referees: u8 *)
  cd_level : N;     (* current_credit_level *)
  cd_eras : N;      (* reward_eras: u32 *)
}.
Global Instance cdata_eq_dec : EqDecision cdata.
Proof. solve_decision. Defined.

(** primitives/src/credit.rs:33-43 CreditSetting. *)
Record setting := Setting {
  st_camp : N; st_level : N;
  st_bal : N;          (* staking_balance *)
  st_apy : N;          (* base_apy, parts of 100 *)
  st_bonus : N;        (* bonus_apy *)
  st_maxrank : N;      (* max_rank_with_bonus *)
  st_tax : N;          (* tax_rate *)
  st_maxref : N;       (* max_referees_with_rewards: u8 *)
  st_perref : N;       (* reward_per_referee *)
}.
Definition setting0 : setting := Setting 0 0 0 0 0 0 0 0 0.

(** primitives/src/credit.rs:14-19 DEFAULT_REWARD_ERAS, OLD_REWARD_ERAS,
    CREDIT_CAP_ONE_ERAS; lib.rs:31 USDT_CAMPAIGN_ID. *)
Definition DEFAULT_REWARD_ERAS : N := 3650.
Definition OLD_REWARD_ERAS : N := 270.
Definition CREDIT_CAP_ONE_ERAS : N := 1.
Definition USDT_CAMPAIGN_ID : N := 5.
Definition U64MAX : N := two64 - 1.
Definition DPR : N := 1000000000000000000.

(** primitives/src/credit.rs:160-173 get_credit_level. *)
Definition level_of (score : N) : N :=
  if score <=? 99 then 0 else if score <=? 199 then 1 else if score <=? 299 then 2
  else if score <=? 399 then 3 else if score <=? 499 then 4 else if score <=? 599 then 5
  else if score <=? 699 then 6 else if score <=? 799 then 7 else 8.

(** primitives/src/credit.rs:71-81 CreditData::new. *)
Definition cd_new (camp credit : N) : cdata :=
  CData camp credit (level_of credit) 0 0 (level_of credit) DEFAULT_REWARD_ERAS.
(** primitives/src/credit.rs:83-87 CreditData::update. *)
Definition cd_update (d : cdata) (credit : N) : cdata :=
  CData (cd_camp d) credit (cd_init d) (cd_rank d) (cd_refs d) (level_of credit) (cd_eras d).

(** lib.rs:135-328 storage (and, at the end, the part of pallet_uniques that is used). *)
Record kstate := KState {
  k_bank : bank;                            (* balances *)
  k_uc : gmap N cdata;                      (* UserCredit *)
  k_ustake : gmap N N;                      (* UserStakingCredit *)
  k_hist : gmap N (list (N * cdata));       (* UserCreditHistory, default [] *)
  k_daily_burn : gmap N N;                  (* TotalDailyBurnDPR, default 0 *)
  k_total_burn : N;                         (* TotalBurnDPR *)
  k_settings : gmap (N * N) setting;        (* CreditSettings by campaign and level *)
  k_poc : gmap (N * N) (N * N);             (* DailyPocReward (base, with bonus), default (0, 0) *)
  k_last_era : gmap N N;                    (* LastCreditUpdate *)
  k_last_ts : gmap N N;                     (* LastCreditUpdateTimestamp *)
  k_nft_credit : gmap N N;                  (* MiningMachineClassCredit *)
  k_switch : gmap N N;                      (* CampaignIdSwitch *)
  k_noswitch : gmap N bool;                 (* NotSwitchAccounts *)
  k_balances : list N;                      (* CreditBalances *)
  k_usdt_balances : list N;                 (* UsdtCreditBalances *)
  k_gen_balances : list N;                  (* GenesisCreditBalances *)
  k_from_nft : gmap N N;                    (* CreditFromBurnNft, default 0 *)
  k_default_id : N;                         (* DefaultCampaignId *)
  k_usdt_id : N;                            (* DefaultUsdtCampaignId *)
  k_price : option N;                       (* DprPrice *)
  k_rate : option N;                        (* PriceDiffRate, parts of 100 *)
  k_stakebal : gmap N (N * N);              (* UserStakingBalance (usdt, dpr) *)
  k_prices : list N;                        (* CurrentPrices *)
  k_maintain : list N;                      (* MaintainDevices *)
  k_change_era : N;                         (* GenesisChangeRewardEra *)
  k_dpr_per_credit : N;                     (* DPRPerCreditBurned *)
  k_version : N;                            (* StorageVersion, 4 or 5 *)
  k_nft_owner : gmap (N * N) N;             (* pallet_uniques: owner of (class, item) *)
  k_nft_admin : gmap N N;                   (* pallet_uniques: admin of a class *)
}.

Definition set_k_bank (s : kstate) (v : bank) : kstate :=
  KState v (k_uc s) (k_ustake s) (k_hist s) (k_daily_burn s) (k_total_burn s) (k_settings s) (k_poc s) (k_last_era s) (k_last_ts s) (k_nft_credit s) (k_switch s) (k_noswitch s) (k_balances s) (k_usdt_balances s) (k_gen_balances s) (k_from_nft s) (k_default_id s) (k_usdt_id s) (k_price s) (k_rate s) (k_stakebal s) (k_prices s) (k_maintain s) (k_change_era s) (k_dpr_per_credit s) (k_version s) (k_nft_owner s) (k_nft_admin s).
Definition set_k_uc (s : kstate) (v : gmap N cdata) : kstate :=
  KState (k_bank s) v (k_ustake s) (k_hist s) (k_daily_burn s) (k_total_burn s) (k_settings s) (k_poc s) (k_last_era s) (k_last_ts s) (k_nft_credit s) (k_switch s) (k_noswitch s) (k_balances s) (k_usdt_balances s) (k_gen_balances s) (k_from_nft s) (k_default_id s) (k_usdt_id s) (k_price s) (k_rate s) (k_stakebal s) (k_prices s) (k_maintain s) (k_change_era s) (k_dpr_per_credit s) (k_version s) (k_nft_owner s) (k_nft_admin s).
Definition set_k_ustake (s : kstate) (v : gmap N N) : kstate :=
  KState (k_bank s) (k_uc s) v (k_hist s) (k_daily_burn s) (k_total_burn s) (k_settings s) (k_poc s) (k_last_era s) (k_last_ts s) (k_nft_credit s) (k_switch s) (k_noswitch s) (k_balances s) (k_usdt_balances s) (k_gen_balances s) (k_from_nft s) (k_default_id s) (k_usdt_id s) (k_price s) (k_rate s) (k_stakebal s) (k_prices s) (k_maintain s) (k_change_era s) (k_dpr_per_credit s) (k_version s) (k_nft_owner s) (k_nft_admin s).
Definition set_k_hist (s : kstate) (v : gmap N (list (N * cdata))) : kstate :=
  KState (k_bank s) (k_uc s) (k_ustake s) v (k_daily_burn s) (k_total_burn s) (k_settings s) (k_poc s) (k_last_era s) (k_last_ts s) (k_nft_credit s) (k_switch s) (k_noswitch s) (k_balances s) (k_usdt_balances s) (k_gen_balances s) (k_from_nft s) (k_default_id s) (k_usdt_id s) (k_price s) (k_rate s) (k_stakebal s) (k_prices s) (k_maintain s) (k_change_era s) (k_dpr_per_credit s) (k_version s) (k_nft_owner s) (k_nft_admin s).
Definition set_k_daily_burn (s : kstate) (v : gmap N N) : kstate :=
  KState (k_bank s) (k_uc s) (k_ustake s) (k_hist s) v (k_total_burn s) (k_settings s) (k_poc s) (k_last_era s) (k_last_ts s) (k_nft_credit s) (k_switch s) (k_noswitch s) (k_balances s) (k_usdt_balances s) (k_gen_balances s) (k_from_nft s) (k_default_id s) (k_usdt_id s) (k_price s) (k_rate s) (k_stakebal s) (k_prices s) (k_maintain s) (k_change_era s) (k_dpr_per_credit s) (k_version s) (k_nft_owner s) (k_nft_admin s).
Definition set_k_total_burn (s : kstate) (v : N) : kstate :=
  KState (k_bank s) (k_uc s) (k_ustake s) (k_hist s) (k_daily_burn s) v (k_settings s) (k_poc s) (k_last_era s) (k_last_ts s) (k_nft_credit s) (k_switch s) (k_noswitch s) (k_balances s) (k_usdt_balances s) (k_gen_balances s) (k_from_nft s) (k_default_id s) (k_usdt_id s) (k_price s) (k_rate s) (k_stakebal s) (k_prices s) (k_maintain s) (k_change_era s) (k_dpr_per_credit s) (k_version s) (k_nft_owner s) (k_nft_admin s).
Definition set_k_settings (s : kstate) (v : gmap (N * N) setting) : kstate :=
  KState (k_bank s) (k_uc s) (k_ustake s) (k_hist s) (k_daily_burn s) (k_total_burn s) v (k_poc s) (k_last_era s) (k_last_ts s) (k_nft_credit s) (k_switch s) (k_noswitch s) (k_balances s) (k_usdt_balances s) (k_gen_balances s) (k_from_nft s) (k_default_id s) (k_usdt_id s) (k_price s) (k_rate s) (k_stakebal s) (k_prices s) (k_maintain s) (k_change_era s) (k_dpr_per_credit s) (k_version s) (k_nft_owner s) (k_nft_admin s).
Definition set_k_poc (s : kstate) (v : gmap (N * N) (N * N)) : kstate :=
  KState (k_bank s) (k_uc s) (k_ustake s) (k_hist s) (k_daily_burn s) (k_total_burn s) (k_settings s) v (k_last_era s) (k_last_ts s) (k_nft_credit s) (k_switch s) (k_noswitch s) (k_balances s) (k_usdt_balances s) (k_gen_balances s) (k_from_nft s) (k_default_id s) (k_usdt_id s) (k_price s) (k_rate s) (k_stakebal s) (k_prices s) (k_maintain s) (k_change_era s) (k_dpr_per_credit s) (k_version s) (k_nft_owner s) (k_nft_admin s).
Definition set_k_last_era (s : kstate) (v : gmap N N) : kstate :=
  KState (k_bank s) (k_uc s) (k_ustake s) (k_hist s) (k_daily_burn s) (k_total_burn s) (k_settings s) (k_poc s) v (k_last_ts s) (k_nft_credit s) (k_switch s) (k_noswitch s) (k_balances s) (k_usdt_balances s) (k_gen_balances s) (k_from_nft s) (k_default_id s) (k_usdt_id s) (k_price s) (k_rate s) (k_stakebal s) (k_prices s) (k_maintain s) (k_change_era s) (k_dpr_per_credit s) (k_version s) (k_nft_owner s) (k_nft_admin s).
Definition set_k_last_ts (s : kstate) (v : gmap N N) : kstate :=
  KState (k_bank s) (k_uc s) (k_ustake s) (k_hist s) (k_daily_burn s) (k_total_burn s) (k_settings s) (k_poc s) (k_last_era s) v (k_nft_credit s) (k_switch s) (k_noswitch s) (k_balances s) (k_usdt_balances s) (k_gen_balances s) (k_from_nft s) (k_default_id s) (k_usdt_id s) (k_price s) (k_rate s) (k_stakebal s) (k_prices s) (k_maintain s) (k_change_era s) (k_dpr_per_credit s) (k_version s) (k_nft_owner s) (k_nft_admin s).
Definition set_k_nft_credit (s : kstate) (v : gmap N N) : kstate :=
  KState (k_bank s) (k_uc s) (k_ustake s) (k_hist s) (k_daily_burn s) (k_total_burn s) (k_settings s) (k_poc s) (k_last_era s) (k_last_ts s) v (k_switch s) (k_noswitch s) (k_balances s) (k_usdt_balances s) (k_gen_balances s) (k_from_nft s) (k_default_id s) (k_usdt_id s) (k_price s) (k_rate s) (k_stakebal s) (k_prices s) (k_maintain s) (k_change_era s) (k_dpr_per_credit s) (k_version s) (k_nft_owner s) (k_nft_admin s).
Definition set_k_switch (s : kstate) (v : gmap N N) : kstate :=
  KState (k_bank s) (k_uc s) (k_ustake s) (k_hist s) (k_daily_burn s) (k_total_burn s) (k_settings s) (k_poc s) (k_last_era s) (k_last_ts s) (k_nft_credit s) v (k_noswitch s) (k_balances s) (k_usdt_balances s) (k_gen_balances s) (k_from_nft s) (k_default_id s) (k_usdt_id s) (k_price s) (k_rate s) (k_stakebal s) (k_prices s) (k_maintain s) (k_change_era s) (k_dpr_per_credit s) (k_version s) (k_nft_owner s) (k_nft_admin s).
Definition set_k_noswitch (s : kstate) (v : gmap N bool) : kstate :=
  KState (k_bank s) (k_uc s) (k_ustake s) (k_hist s) (k_daily_burn s) (k_total_burn s) (k_settings s) (k_poc s) (k_last_era s) (k_last_ts s) (k_nft_credit s) (k_switch s) v (k_balances s) (k_usdt_balances s) (k_gen_balances s) (k_from_nft s) (k_default_id s) (k_usdt_id s) (k_price s) (k_rate s) (k_stakebal s) (k_prices s) (k_maintain s) (k_change_era s) (k_dpr_per_credit s) (k_version s) (k_nft_owner s) (k_nft_admin s).
Definition set_k_balances (s : kstate) (v : list N) : kstate :=
  KState (k_bank s) (k_uc s) (k_ustake s) (k_hist s) (k_daily_burn s) (k_total_burn s) (k_settings s) (k_poc s) (k_last_era s) (k_last_ts s) (k_nft_credit s) (k_switch s) (k_noswitch s) v (k_usdt_balances s) (k_gen_balances s) (k_from_nft s) (k_default_id s) (k_usdt_id s) (k_price s) (k_rate s) (k_stakebal s) (k_prices s) (k_maintain s) (k_change_era s) (k_dpr_per_credit s) (k_version s) (k_nft_owner s) (k_nft_admin s).
Definition set_k_usdt_balances (s : kstate) (v : list N) : kstate :=
  KState (k_bank s) (k_uc s) (k_ustake s) (k_hist s) (k_daily_burn s) (k_total_burn s) (k_settings s) (k_poc s) (k_last_era s) (k_last_ts s) (k_nft_credit s) (k_switch s) (k_noswitch s) (k_balances s) v (k_gen_balances s) (k_from_nft s) (k_default_id s) (k_usdt_id s) (k_price s) (k_rate s) (k_stakebal s) (k_prices s) (k_maintain s) (k_change_era s) (k_dpr_per_credit s) (k_version s) (k_nft_owner s) (k_nft_admin s).
Definition set_k_gen_balances (s : kstate) (v : list N) : kstate :=
  KState (k_bank s) (k_uc s) (k_ustake s) (k_hist s) (k_daily_burn s) (k_total_burn s) (k_settings s) (k_poc s) (k_last_era s) (k_last_ts s) (k_nft_credit s) (k_switch s) (k_noswitch s) (k_balances s) (k_usdt_balances s) v (k_from_nft s) (k_default_id s) (k_usdt_id s) (k_price s) (k_rate s) (k_stakebal s) (k_prices s) (k_maintain s) (k_change_era s) (k_dpr_per_credit s) (k_version s) (k_nft_owner s) (k_nft_admin s).
Definition set_k_from_nft (s : kstate) (v : gmap N N) : kstate :=
  KState (k_bank s) (k_uc s) (k_ustake s) (k_hist s) (k_daily_burn s) (k_total_burn s) (k_settings s) (k_poc s) (k_last_era s) (k_last_ts s) (k_nft_credit s) (k_switch s) (k_noswitch s) (k_balances s) (k_usdt_balances s) (k_gen_balances s) v (k_default_id s) (k_usdt_id s) (k_price s) (k_rate s) (k_stakebal s) (k_prices s) (k_maintain s) (k_change_era s) (k_dpr_per_credit s) (k_version s) (k_nft_owner s) (k_nft_admin s).
Definition set_k_default_id (s : kstate) (v : N) : kstate :=
  KState (k_bank s) (k_uc s) (k_ustake s) (k_hist s) (k_daily_burn s) (k_total_burn s) (k_settings s) (k_poc s) (k_last_era s) (k_last_ts s) (k_nft_credit s) (k_switch s) (k_noswitch s) (k_balances s) (k_usdt_balances s) (k_gen_balances s) (k_from_nft s) v (k_usdt_id s) (k_price s) (k_rate s) (k_stakebal s) (k_prices s) (k_maintain s) (k_change_era s) (k_dpr_per_credit s) (k_version s) (k_nft_owner s) (k_nft_admin s).
Definition set_k_usdt_id (s : kstate) (v : N) : kstate :=
  KState (k_bank s) (k_uc s) (k_ustake s) (k_hist s) (k_daily_burn s) (k_total_burn s) (k_settings s) (k_poc s) (k_last_era s) (k_last_ts s) (k_nft_credit s) (k_switch s) (k_noswitch s) (k_balances s) (k_usdt_balances s) (k_gen_balances s) (k_from_nft s) (k_default_id s) v (k_price s) (k_rate s) (k_stakebal s) (k_prices s) (k_maintain s) (k_change_era s) (k_dpr_per_credit s) (k_version s) (k_nft_owner s) (k_nft_admin s).
Definition set_k_price (s : kstate) (v : option N) : kstate :=
  KState (k_bank s) (k_uc s) (k_ustake s) (k_hist s) (k_daily_burn s) (k_total_burn s) (k_settings s) (k_poc s) (k_last_era s) (k_last_ts s) (k_nft_credit s) (k_switch s) (k_noswitch s) (k_balances s) (k_usdt_balances s) (k_gen_balances s) (k_from_nft s) (k_default_id s) (k_usdt_id s) v (k_rate s) (k_stakebal s) (k_prices s) (k_maintain s) (k_change_era s) (k_dpr_per_credit s) (k_version s) (k_nft_owner s) (k_nft_admin s).
Definition set_k_rate (s : kstate) (v : option N) : kstate :=
  KState (k_bank s) (k_uc s) (k_ustake s) (k_hist s) (k_daily_burn s) (k_total_burn s) (k_settings s) (k_poc s) (k_last_era s) (k_last_ts s) (k_nft_credit s) (k_switch s) (k_noswitch s) (k_balances s) (k_usdt_balances s) (k_gen_balances s) (k_from_nft s) (k_default_id s) (k_usdt_id s) (k_price s) v (k_stakebal s) (k_prices s) (k_maintain s) (k_change_era s) (k_dpr_per_credit s) (k_version s) (k_nft_owner s) (k_nft_admin s).
Definition set_k_stakebal (s : kstate) (v : gmap N (N * N)) : kstate :=
  KState (k_bank s) (k_uc s) (k_ustake s) (k_hist s) (k_daily_burn s) (k_total_burn s) (k_settings s) (k_poc s) (k_last_era s) (k_last_ts s) (k_nft_credit s) (k_switch s) (k_noswitch s) (k_balances s) (k_usdt_balances s) (k_gen_balances s) (k_from_nft s) (k_default_id s) (k_usdt_id s) (k_price s) (k_rate s) v (k_prices s) (k_maintain s) (k_change_era s) (k_dpr_per_credit s) (k_version s) (k_nft_owner s) (k_nft_admin s).
Definition set_k_prices (s : kstate) (v : list N) : kstate :=
  KState (k_bank s) (k_uc s) (k_ustake s) (k_hist s) (k_daily_burn s) (k_total_burn s) (k_settings s) (k_poc s) (k_last_era s) (k_last_ts s) (k_nft_credit s) (k_switch s) (k_noswitch s) (k_balances s) (k_usdt_balances s) (k_gen_balances s) (k_from_nft s) (k_default_id s) (k_usdt_id s) (k_price s) (k_rate s) (k_stakebal s) v (k_maintain s) (k_change_era s) (k_dpr_per_credit s) (k_version s) (k_nft_owner s) (k_nft_admin s).
Definition set_k_maintain (s : kstate) (v : list N) : kstate :=
  KState (k_bank s) (k_uc s) (k_ustake s) (k_hist s) (k_daily_burn s) (k_total_burn s) (k_settings s) (k_poc s) (k_last_era s) (k_last_ts s) (k_nft_credit s) (k_switch s) (k_noswitch s) (k_balances s) (k_usdt_balances s) (k_gen_balances s) (k_from_nft s) (k_default_id s) (k_usdt_id s) (k_price s) (k_rate s) (k_stakebal s) (k_prices s) v (k_change_era s) (k_dpr_per_credit s) (k_version s) (k_nft_owner s) (k_nft_admin s).
Definition set_k_change_era (s : kstate) (v : N) : kstate :=
  KState (k_bank s) (k_uc s) (k_ustake s) (k_hist s) (k_daily_burn s) (k_total_burn s) (k_settings s) (k_poc s) (k_last_era s) (k_last_ts s) (k_nft_credit s) (k_switch s) (k_noswitch s) (k_balances s) (k_usdt_balances s) (k_gen_balances s) (k_from_nft s) (k_default_id s) (k_usdt_id s) (k_price s) (k_rate s) (k_stakebal s) (k_prices s) (k_maintain s) v (k_dpr_per_credit s) (k_version s) (k_nft_owner s) (k_nft_admin s).
Definition set_k_dpr_per_credit (s : kstate) (v : N) : kstate :=
  KState (k_bank s) (k_uc s) (k_ustake s) (k_hist s) (k_daily_burn s) (k_total_burn s) (k_settings s) (k_poc s) (k_last_era s) (k_last_ts s) (k_nft_credit s) (k_switch s) (k_noswitch s) (k_balances s) (k_usdt_balances s) (k_gen_balances s) (k_from_nft s) (k_default_id s) (k_usdt_id s) (k_price s) (k_rate s) (k_stakebal s) (k_prices s) (k_maintain s) (k_change_era s) v (k_version s) (k_nft_owner s) (k_nft_admin s).
Definition set_k_version (s : kstate) (v : N) : kstate :=
  KState (k_bank s) (k_uc s) (k_ustake s) (k_hist s) (k_daily_burn s) (k_total_burn s) (k_settings s) (k_poc s) (k_last_era s) (k_last_ts s) (k_nft_credit s) (k_switch s) (k_noswitch s) (k_balances s) (k_usdt_balances s) (k_gen_balances s) (k_from_nft s) (k_default_id s) (k_usdt_id s) (k_price s) (k_rate s) (k_stakebal s) (k_prices s) (k_maintain s) (k_change_era s) (k_dpr_per_credit s) v (k_nft_owner s) (k_nft_admin s).
Definition set_k_nft_owner (s : kstate) (v : gmap (N * N) N) : kstate :=
  KState (k_bank s) (k_uc s) (k_ustake s) (k_hist s) (k_daily_burn s) (k_total_burn s) (k_settings s) (k_poc s) (k_last_era s) (k_last_ts s) (k_nft_credit s) (k_switch s) (k_noswitch s) (k_balances s) (k_usdt_balances s) (k_gen_balances s) (k_from_nft s) (k_default_id s) (k_usdt_id s) (k_price s) (k_rate s) (k_stakebal s) (k_prices s) (k_maintain s) (k_change_era s) (k_dpr_per_credit s) (k_version s) v (k_nft_admin s).
Definition set_k_nft_admin (s : kstate) (v : gmap N N) : kstate :=
  KState (k_bank s) (k_uc s) (k_ustake s) (k_hist s) (k_daily_burn s) (k_total_burn s) (k_settings s) (k_poc s) (k_last_era s) (k_last_ts s) (k_nft_credit s) (k_switch s) (k_noswitch s) (k_balances s) (k_usdt_balances s) (k_gen_balances s) (k_from_nft s) (k_default_id s) (k_usdt_id s) (k_price s) (k_rate s) (k_stakebal s) (k_prices s) (k_maintain s) (k_change_era s) (k_dpr_per_credit s) (k_version s) (k_nft_owner s) v.

(** Constants of the runtime: existential deposit, BlocksPerEra, SecsPerBlock,
    MinCreditToDelegate (100), CreditAttenuationStep (1),
    MaxBurnCreditPerAddress (50), the treasury account (BurnedTo). *)
Record kcfg := KCfg {
  kc_ed : N; kc_bpe : N; kc_secs : N; kc_min : N; kc_step : N; kc_maxburn : N; kc_treasury : N;
}.

(** Surroundings of a call: block number (u32), unix time in seconds, the node
    pallet (onboard block, eras offline, EVM address to account) and the
    privileges pallet. *)
Record kctx := KCtx {
  kx_now : N;
  kx_secs : N;
  kx_onboard : N -> option N;
  kx_offline : N -> N;
  kx_e2d : N -> option N;
  kx_priv : N -> privilege -> bool;
  kx_evm_priv : N -> privilege -> bool;
}.

(** lib.rs:376-408 errors, plus balance, NFT and origin errors. *)
Inductive kerr :=
| KInvalidCreditData | KCreditAddTooMuch | KBadEraOrHistory | KAccountNotFound
| KAccountNoExist | KNoClassConfig | KCampaignIdNotMatch | KNotAdmin | KNotOracle
| KStakingCreditNotSet | KOutOfMaxBurn | KPriceDiff | KPriceZero | KNotDeviceAdmin
| KBalance | KNft | KBadOrigin.

(** What a call returns. *)
Inductive kout := KDone | KBool (b : bool) | KReward (r : option N).

(** Dispatchables (lib.rs:478-887). *)
Inductive kcall :=
| KUpdateSetting (st : setting)
| KForceHistory (who era : N)
| KAddData (who : N) (d : cdata)
| KBurnForCredit (score : N)
| KNftClassCredit (class credit : N)
| KSetNftSum (who credit : N)
| KBurnNft (class item : N)
| KSetSwitch (old new : list N)
| KSetNoSwitch (l : list N)
| KSetBalances (l : list N)
| KSetUsdtBalances (l : list N)
| KSetDefaultId (id : N)
| KSetStaking (l : list (N * N))
| KUnstakingSlash (who : N)
| KExternalData (who : N) (d : cdata)
| KSetRate (rate : N)
| KSetPrice (price : N)
| KUnsetStaking (who : N)
| KSetMaintain (who : N)
| KUnsetMaintain (who : N)
| KSetDprPerCredit (amount : N).

(** Entry points used by other pallets and the runtime (lib.rs:918-966,
    1302-1690), the hooks (lib.rs:411-473), and changes of NFT ownership made
    through pallet_uniques itself. *)
Inductive kentry :=
| KEvmUpdate (caller user score : N) (add : bool)
| KSlash (who : N) (score : option N)
| KGetReward (who from to : N)
| KTraffic (who : N)
| KTip (who add : N)
| KInitHistory (who : N)
| KAddOrUpdate (who gap : N) (camp : option N)
| KStakingBalance (who usdt dpr : N)
| KUnstaking (who : N)
| KBurnRecord (amount : N)
| KInitialize
| KFinalize
| KUpgrade
| KNftSet (class item : N) (owner : option N)
| KNftAdmin (class admin : N).

(** lib.rs:120-124 etc.: getters with their defaults. *)
Definition hist_of (s : kstate) (who : N) : list (N * cdata) := default [] (k_hist s !! who).
Definition setting_of (s : kstate) (camp lvl : N) : setting := default setting0 (k_settings s !! (camp, lvl)).
Definition poc_of (s : kstate) (camp lvl : N) : N * N := default (0, 0) (k_poc s !! (camp, lvl)).
Definition credit_score (s : kstate) (who : N) : option N := cd_credit <$> k_uc s !! who.

(** [a.saturating_add(b)] on u64 and u128, [saturating_mul] on u128. *)
Definition sadd64 (a b : N) : N := N.min (a + b) (two64 - 1).
Definition sadd128 (a b : N) : N := N.min (a + b) (two128 - 1).
Definition smul128 (a b : N) : N := N.min (a * b) (two128 - 1).
Definition smul64 (a b : N) : N := N.min (a * b) (two64 - 1).

(** Constants [Perbill::from_rational(270, 365)] and [from_rational(1, 270)]. *)
Definition PB_270_365 : N := 739726027.
Definition PB_1_270 : N := 3703703.

(** lib.rs:1091-1121 _update_credit_setting. *)
Definition daily_base (st : setting) : N :=
  frac_mul PB_1_270 PERBILL (frac_mul PB_270_365 PERBILL (frac_mul (st_apy st) 100 (st_bal st)))
  - smul128 (st_perref st) (st_maxref st).
Definition daily_bonus (st : setting) : N :=
  frac_mul PB_1_270 PERBILL (frac_mul PB_270_365 PERBILL
    (frac_mul (N.min (st_apy st + st_bonus st) 100) 100 (st_bal st)))
  - smul128 (st_perref st) (st_maxref st).
Definition update_setting (s : kstate) (st : setting) : kstate :=
  set_k_settings
    (set_k_poc s (<[(st_camp st, st_level st) := (daily_base st, daily_bonus st)]> (k_poc s)))
    (<[(st_camp st, st_level st) := st]> (k_settings s)).

(** credit_setting.rs:128-230 half_campaign8_settings, as (level, balance in DPR,
    apy, referees). *)
Definition half_campaign8 : list setting :=
  map (fun '(l, b, apy, refs) => Setting 8 l (b * DPR) apy 0 0 0 refs 0)
    [ (0, 0, 0, 0); (1, 5000, 5, 1); (2, 10000, 8, 2); (3, 20000, 9, 3); (4, 30000, 10, 7);
      (5, 50000, 12, 12); (6, 60000, 13, 18); (7, 80000, 14, 25); (8, 100000, 15, 34) ].
(** credit_setting.rs:246-257 half_campaign7_settings. [+] on Percent saturates
    at 100. *)
Definition half_campaign7 (add : N) : list setting :=
  map (fun st => Setting 7 (st_level st) (st_bal st)
                   (if st_bal st =? 0 then st_apy st else N.min (st_apy st + add) 100)
                   (st_bonus st) (st_maxrank st) (st_tax st) (st_maxref st) (st_perref st))
    half_campaign8.
(** credit_setting.rs:13-21 sub_genesis_apy. *)
Definition sub_genesis_apy (subed : N) : list setting :=
  map (fun st => if subed <=? st_apy st
                 then Setting (st_camp st) (st_level st) (st_bal st) (st_apy st - subed)
                        (st_bonus st) (st_maxrank st) (st_tax st) (st_maxref st) (st_perref st)
                 else st)
    (half_campaign7 10).

(** lib.rs:902-916 set_price. *)
Definition set_price (s : kstate) : kstate :=
  match k_prices s with
  | [] => s
  | l => set_k_price (set_k_prices s [])
           (Some (fold_left add128 l 0 / N.of_nat (length l)))
  end.

Section model.
  Context (cfg : kcfg).

  (** lib.rs:1071-1075 block_to_era, 1369-1371 get_current_era. *)
  Definition era_of (block : N) : N := block / kc_bpe cfg.

  (** lib.rs:1067-1069 _pass_threshold. *)
  Definition passes (d : cdata) : bool := kc_min cfg <=? cd_credit d.

  (** lib.rs:986-1005 update_credit_history; unwraps the credit data. *)
  Definition update_history (s : kstate) (who era : N) : res kerr kstate :=
    match k_uc s !! who with
    | None => RPanic
    | Some d =>
        match last (hist_of s who) with
        | None => ROk s
        | Some (e, _) =>
            let h := hist_of s who in
            ROk (set_k_hist s
                   (<[who := if e =? era then take (length h - 1) h ++ [(era, d)]
                             else h ++ [(era, d)]]> (k_hist s)))
        end
    end.

  (** lib.rs:969-984 _update_credit. *)
  Definition update_credit (s : kstate) (who score : N) : kstate * bool :=
    match k_uc s !! who with
    | Some d => (set_k_uc s (<[who := cd_update d score]> (k_uc s)), true)
    | None => (s, false)
    end.

  (** lib.rs:1007-1014 init_credit_history. *)
  Definition init_history (s : kstate) (who : N) (d : cdata) (era : N) : kstate :=
    set_k_hist s (<[who := [(era, d)]]> (k_hist s)).

  (** lib.rs:1178-1190 do_add_credit. *)
  Definition do_add_credit (s : kstate) (x : kctx) (who : N) (d : cdata) : res kerr kstate :=
    match k_uc s !! who with
    | Some _ =>
        let s1 := set_k_uc s (<[who := d]> (k_uc s)) in
        match hist_of s1 who with
        | [] => ROk s1
        | _ => update_history s1 who (era_of (kx_now x))
        end
    | None => ROk (set_k_uc s (<[who := d]> (k_uc s)))
    end.

  (** lib.rs:1391-1427 slash_credit. *)
  Definition slash_credit (s : kstate) (x : kctx) (who : N) (score : option N) : res kerr kstate :=
    let penalty := default (kc_step cfg) score in
    if penalty =? U64MAX
    then ROk (set_k_hist (set_k_uc s (delete who (k_uc s))) (delete who (k_hist s)))
    else
      let s1 := match k_uc s !! who with
                | Some d => set_k_uc s (<[who := cd_update d (cd_credit d - penalty)]> (k_uc s))
                | None => s
                end in
      update_history s1 who (era_of (kx_now x)).

  (** lib.rs:955-966 slash_offline_device_credit. *)
  Definition offline_slash_due (s : kstate) (x : kctx) (who : N) : bool :=
    (0 <? kx_offline x who) && (kx_offline x who mod 3 =? 0)
    && negb (bool_decide (who ∈ k_maintain s)).
  Definition slash_offline (s : kstate) (x : kctx) (who : N) : res kerr kstate :=
    if offline_slash_due s x who then slash_credit s x who None else ROk s.

  (** lib.rs:1152-1176 do_switch_campaign. *)
  Definition do_switch (s : kstate) (who : N) (old : cdata) (era : N) : res kerr (kstate * bool) :=
    match k_noswitch s !! who, k_switch s !! cd_camp old with
    | None, Some id =>
        let d := if cd_camp old =? id
                 then CData (cd_camp old) (cd_credit old) (cd_init old) (cd_rank old) (cd_refs old)
                        (cd_level old) (add32 (cd_eras old) 180)
                 else CData id (cd_credit old) (cd_init old) (cd_rank old) (cd_refs old)
                        (cd_level old) DEFAULT_REWARD_ERAS in
        s' <-? update_history (set_k_uc s (<[who := d]> (k_uc s))) who era ;
        ROk (s', true)
    | _, _ => ROk (s, false)
    end.

  (** lib.rs:1031-1063, the [while] loop: index of the first record not before [era]. *)
  Fixpoint skip (fuel : nat) (h : list (N * cdata)) (i : nat) (era : N) : nat :=
    match fuel with
    | O => i
    | S f =>
        match h !! i with
        | Some (e, _) => if e <? era then skip f h (S i) era else i
        | None => i
        end
    end.

  (** BTreeMap insert-or-increment (u16 count). *)
  Fixpoint bump (m : list (cdata * N)) (d : cdata) : list (cdata * N) :=
    match m with
    | [] => [(d, 1)]
    | (d', n) :: r => if decide (d' = d) then (d', (n + 1) mod 65536) :: r else (d', n) :: bump r d
    end.

  (** lib.rs:1024-1065 get_credit_map over [n] eras starting at [era]; [None]
      stands for an index out of bounds. *)
  Fixpoint credit_map_loop (n : nat) (h : list (N * cdata)) (era : N) (i : nat)
      (m : list (cdata * N)) : option (list (cdata * N)) :=
    match n with
    | O => Some m
    | S n' =>
        let i' := skip (length h) h i era in
        match h !! 0%nat with
        | None => None
        | Some (e0, _) =>
            if era <? e0 then credit_map_loop n' h (era + 1) i' m
            else
              let pick :=
                match h !! i' with
                | Some (e, d) => if e =? era then Some d
                                 else match i' with O => None | S j => snd <$> h !! j end
                | None => match i' with O => None | S j => snd <$> h !! j end
                end in
              match pick with
              | None => None
              | Some d => credit_map_loop n' h (era + 1) i' (if passes d then bump m d else m)
              end
        end
    end.
  Definition get_credit_map (h : list (N * cdata)) (from to : N) : option (list (cdata * N)) :=
    credit_map_loop (N.to_nat (to + 1 - from)) h from 0 [].

  (** lib.rs:1289-1299 calc_price_dpr. *)
  Definition calc_price_dpr (num den base : N) : res kerr N :=
    if den =? 0 then RPanic else ROk (w128 (num * base / den)).

  (** lib.rs:1205-1239 calc_usdt_daily_poc_reward. *)
  Definition usdt_reward (s : kstate) (who : N) (d : cdata) : res kerr N :=
    let usdt := fst (default (25 * DPR, 0) (k_stakebal s !! who)) in
    match k_price s with
    | None => ROk 0
    | Some price =>
        amount <-? calc_price_dpr usdt price DPR ;
        ROk (frac_mul (st_apy (setting_of s (cd_camp d) (cd_level d))) 100 amount / 365)
    end.

  (** lib.rs:1241-1274 calc_normal_daily_poc_reward. *)
  Definition normal_reward (s : kstate) (d : cdata) : N :=
    let '(base, bonus) := poc_of s (cd_camp d) (cd_level d) in
    let ranked := cd_rank d <=? st_maxrank (setting_of s (cd_camp d) (cd_init d)) in
    if cd_level d =? cd_init d then (if ranked then bonus else base)
    else
      let '(ibase, ibonus) := poc_of s (cd_camp d) (cd_init d) in
      if ranked then add128 base (sub128 ibonus ibase) else base.

  (** lib.rs:1493-1499. *)
  Definition daily_reward (s : kstate) (who : N) (d : cdata) : res kerr N :=
    if cd_camp d =? USDT_CAMPAIGN_ID then usdt_reward s who d else ROk (normal_reward s d).

  (** lib.rs:1491-1503. The map is iterated in key order; the sum does not
      depend on the order. *)
  Fixpoint sum_rewards (s : kstate) (who : N) (m : list (cdata * N)) (acc : N) : res kerr N :=
    match m with
    | [] => ROk acc
    | (d, n) :: r =>
        v <-? daily_reward s who d ;
        sum_rewards s who r (sadd128 acc (smul128 v n))
    end.

  (** lib.rs:1433-1505 get_reward. *)
  Definition get_reward (s : kstate) (x : kctx) (who from to : N) : res kerr (kstate * option N) :=
    let cur := era_of (kx_now x) in
    if (to <? from) || (cur <=? to) then ROk (s, None) else
    match k_uc s !! who with
    | None => ROk (s, None)
    | Some d =>
        if cd_eras d =? 0 then ROk (s, None) else
        let s1 := match hist_of s who with [] => init_history s who d cur | _ => s end in
        s2 <-? slash_offline s1 x who ;
        let h := hist_of s2 who in
        match h with
        | [] => ROk (s2, None)
        | (delegate_era, _) :: _ =>
            let expiry := sub32 (add32 delegate_era (cd_eras d)) 1 in
            if negb ((from =? expiry) || (cd_camp d <=? 6)) && (expiry <? from) then ROk (s2, None)
            else
              s3 <-? (if (from =? expiry) || (cd_camp d <=? 6)
                      then p <-? do_switch s2 who d cur ; ROk (fst p) else ROk s2) ;
              match get_credit_map h from (N.min to expiry) with
              | None => RPanic
              | Some [] => ROk (s3, None)
              | Some m => r <-? sum_rewards s3 who m 0 ; ROk (s3, Some r)
              end
        end
    end.

  (** lib.rs:1127-1150 check_update_credit_interval. *)
  Definition update_interval (s : kstate) (x : kctx) (who onboard_era : N) : N * bool :=
    match k_last_ts s !! who with
    | Some t => ((kx_secs x - t) / smul64 (kc_bpe cfg) (kc_secs cfg), false)
    | None =>
        match k_last_era s !! who with
        | Some e => (era_of (kx_now x) - e, true)
        | None => (era_of (kx_now x) - onboard_era, false)
        end
    end.

  (** lib.rs:1508-1551 update_credit_by_traffic. *)
  Definition by_traffic (s : kstate) (x : kctx) (who : N) : res kerr kstate :=
    match kx_onboard x who with
    | None => ROk s
    | Some b =>
        let '(n, era_used) := update_interval s x who (era_of b) in
        if CREDIT_CAP_ONE_ERAS <=? n then
          let '(s1, ok) := update_credit s who (sadd64 (default 0 (credit_score s who)) 1) in
          s2 <-? (if ok
                  then update_history (set_k_last_ts s1 (<[who := kx_secs x]> (k_last_ts s1))) who (era_of (kx_now x))
                  else ROk s1) ;
          ROk (if era_used then set_k_last_era s2 (delete who (k_last_era s2)) else s2)
        else ROk s
    end.

  (** lib.rs:1553-1580 update_credit_by_tip. *)
  Definition by_tip (s : kstate) (x : kctx) (who add : N) : res kerr kstate :=
    match kx_onboard x who with
    | None => ROk s
    | Some _ =>
        let '(s1, ok) := update_credit s who (sadd64 (default 0 (credit_score s who)) add) in
        if ok then update_history s1 who (era_of (kx_now x)) else ROk s1
    end.

  (** lib.rs:1582-1601 update_credit_by_burn_nft. *)
  Definition by_burn_nft (s : kstate) (x : kctx) (who add : N) : res kerr kstate :=
    let '(s1, ok) := update_credit s who (sadd64 (default 0 (credit_score s who)) add) in
    if ok then update_history s1 who (era_of (kx_now x)) else RErr KAccountNoExist.

  (** lib.rs:1303-1315 burn_record. *)
  Definition burn_record (s : kstate) (x : kctx) (amount : N) : kstate :=
    let era := era_of (kx_now x) in
    let d := default 0 (k_daily_burn s !! era) in
    set_k_daily_burn (set_k_total_burn s (sadd128 (k_total_burn s) amount))
      (<[era := sadd128 d amount]> (k_daily_burn s)).

  (** lib.rs:1345-1367 add_or_update_credit. *)
  Definition add_or_update (s : kstate) (x : kctx) (who gap : N) (camp : option N) : res kerr kstate :=
    let d := match k_uc s !! who with
             | Some d => cd_update d (sadd64 (cd_credit d) gap)
             | None => cd_new (default (k_default_id s) camp) gap
             end in
    s1 <-? do_add_credit s x who d ;
    ROk (set_k_ustake s1 (<[who := add64 (default 0 (k_ustake s1 !! who)) gap]> (k_ustake s1))).

  (** lib.rs:1603-1615 init_delegator_history, called with the current era. *)
  Definition init_delegator_history (s : kstate) (x : kctx) (who : N) : kstate * bool :=
    match k_uc s !! who with
    | None => (s, false)
    | Some d => (init_history s who d (era_of (kx_now x)), true)
    end.

  (** lib.rs:1631-1661 do_unstaking_slash_credit. *)
  Definition unstaking_slash (s : kstate) (x : kctx) (who : N) : res kerr kstate :=
    match k_ustake s !! who with
    | None => RErr KStakingCreditNotSet
    | Some st =>
        match k_uc s !! who with
        | None => RErr KAccountNoExist
        | Some d =>
            let s1 := set_k_uc s (<[who := cd_new (k_default_id s) (cd_credit d - st)]> (k_uc s)) in
            update_history (set_k_ustake s1 (delete who (k_ustake s1))) who (era_of (kx_now x))
        end
    end.

  (** lib.rs:1667-1681 set_staking_balance. *)
  Definition set_staking_balance (s : kstate) (who usdt dpr : N) : kstate :=
    let v := match k_stakebal s !! who with
             | Some (u, d) => (add128 u usdt, add128 d dpr)
             | None => (usdt, dpr)
             end in
    set_k_stakebal s (<[who := v]> (k_stakebal s)).

  (** lib.rs:918-953 evm_update_credit. *)
  Definition evm_update (s : kstate) (x : kctx) (caller user score : N) (add : bool)
      : res kerr (kstate * bool) :=
    if negb (kx_evm_priv x caller EvmCreditOperation) then ROk (s, false) else
    match kx_e2d x user with
    | None => ROk (s, false)
    | Some who =>
        if add then
          match k_uc s !! who with
          | None => ROk (s, false)
          | Some d =>
              s1 <-? do_add_credit s x who (cd_update d (sadd64 (cd_credit d) score)) ;
              ROk (s1, true)
          end
        else s1 <-? slash_credit s x who (Some score) ; ROk (s1, true)
    end.

  (** lib.rs:1277-1287 is_same_campaign_type. *)
  Definition is_dpr_campaign (c : N) : bool := (c <=? 8) && negb (c =? 5).
  Definition same_campaign_type (a b : N) : bool :=
    ((a =? 5) && (b =? 5)) || (is_dpr_campaign a && is_dpr_campaign b).

  (** lib.rs:1317-1343 get_credit_balance. *)
  Definition get_credit_balance (s : kstate) (who : N) (req : option N) : list N :=
    let id := match cd_camp <$> k_uc s !! who, req with
              | None, None => 65535
              | Some c, Some r => if same_campaign_type c r then c else 65535
              | Some c, None => c
              | None, Some r => r
              end in
    if (id =? 0) || (id =? 1) then k_gen_balances s
    else if (id =? 2) || (id =? 4) then k_balances s
    else if id =? 5 then k_usdt_balances s
    else if (id =? 6) || (id =? 7) || (id =? 8) then k_balances s
    else [].

  (** lib.rs:1078-1089 check_credit_data. *)
  Definition check_credit_data (s : kstate) (d : cdata) : res kerr unit :=
    _u <-? ensure (level_of (cd_credit d) =? cd_level d) KInvalidCreditData ;
    ensure (cd_refs d <=? st_maxref (setting_of s (cd_camp d) (cd_init d))) KInvalidCreditData.

  (** lib.rs:503-520, the loop of force_modify_credit_history: the history from
      the record in force at [era] on, restamped to [era]. *)
  Fixpoint restamp (h : list (N * cdata)) (era : N) : option (list (N * cdata)) :=
    match h with
    | [] => None
    | (e, d) :: r =>
        let hit := match r with
                   | (e', _) :: _ => (e <=? era) && (era <? e')
                   | [] => e <=? era
                   end in
        if hit then Some ((era, d) :: r) else restamp r era
    end.

  (** lib.rs:561-578: the cap of burn_for_add_credit. *)
  Definition max_credit (s : kstate) (who : N) : N :=
    fold_left N.max (map (fun p => cd_credit (snd p)) (hist_of s who)) (kc_min cfg).

  Definition ensure_signed_k (o : origin) : res kerr N :=
    match o with Signed a => ROk a | _ => RErr KBadOrigin end.
  Definition ensure_root_k (o : origin) : res kerr unit :=
    match o with Root => ROk tt | _ => RErr KBadOrigin end.
  (** lib.rs:890-896 is_admin, is_device_admin. *)
  Definition ensure_admin (x : kctx) (o : origin) : res kerr N :=
    who <-? ensure_signed_k o ;
    _u <-? ensure (kx_priv x who CreditAdmin) KNotAdmin ;
    ROk who.
  Definition ensure_device_admin (x : kctx) (o : origin) : res kerr N :=
    who <-? ensure_signed_k o ;
    _u <-? ensure (kx_priv x who DeviceAdmin) KNotDeviceAdmin ;
    ROk who.

  (** lib.rs:495-534 force_modify_credit_history. *)
  Definition force_history (s : kstate) (o : origin) (who era : N) : res kerr kstate :=
    _u <-? ensure_root_k o ;
    match k_hist s !! who with
    | None => RErr KAccountNotFound
    | Some h =>
        match restamp h era with
        | None => RErr KBadEraOrHistory
        | Some h' => ROk (set_k_hist s (<[who := h']> (k_hist s)))
        end
    end.

  (** lib.rs:553-600 burn_for_add_credit. *)
  Definition burn_for_credit (s : kstate) (x : kctx) (o : origin) (score : N) : res kerr kstate :=
    who <-? ensure_signed_k o ;
    match k_uc s !! who with
    | None => RErr KInvalidCreditData
    | Some d =>
        let target := sadd64 (cd_credit d) score in
        if max_credit s who <? target then RErr KCreditAddTooMuch else
        let amount := smul128 (k_dpr_per_credit s) (w32 score) in
        match withdraw (kc_ed cfg) true (k_bank s) who amount with
        | None => RErr KBalance
        | Some b =>
            let s1 := set_k_bank s (deposit_creating (kc_ed cfg) b (kc_treasury cfg) amount) in
            let '(s2, _) := update_credit s1 who target in
            s3 <-? update_history s2 who (era_of (kx_now x)) ;
            ROk (burn_record s3 x amount)
        end
    end.

  (** lib.rs:637-665 burn_nft, with pallet_uniques::burn (the owner of the item
      or the admin of the class may burn). *)
  Definition burn_nft (s : kstate) (x : kctx) (o : origin) (class item : N) : res kerr kstate :=
    who <-? ensure_signed_k o ;
    match k_nft_credit s !! class with
    | None => RErr KNoClassConfig
    | Some credit =>
        let had := default 0 (k_from_nft s !! who) in
        _u <-? ensure (add64 had credit <=? kc_maxburn cfg) KOutOfMaxBurn ;
        match k_nft_owner s !! (class, item) with
        | None => RErr KNft
        | Some owner =>
            _u <-? ensure ((owner =? who) || bool_decide (k_nft_admin s !! class = Some who)) KNft ;
            let s1 := set_k_nft_owner s (delete (class, item) (k_nft_owner s)) in
            s2 <-? by_burn_nft s1 x who credit ;
            ROk (set_k_from_nft s2 (<[who := add64 had credit]> (k_from_nft s2)))
        end
    end.

  (** lib.rs:798-829 set_dpr_price. *)
  Definition submit_price (s : kstate) (x : kctx) (o : origin) (price : N) : res kerr kstate :=
    _u <-? ensure (negb (price =? 0)) KPriceZero ;
    who <-? ensure_signed_k o ;
    _u <-? ensure (kx_priv x who OracleWorker) KNotOracle ;
    _u <-? match k_rate s, k_price s with
           | Some rate, Some old =>
               ensure ((if old <? price then price - old else old - price)
                       <=? frac_mul rate 100 old) KPriceDiff
           | _, _ => ROk tt
           end ;
    ROk (set_k_prices s (k_prices s ++ [price])).

  (** lib.rs:478-887 dispatch. *)
  Definition kexec (s : kstate) (x : kctx) (o : origin) (c : kcall) : res kerr kstate :=
    match c with
    | KUpdateSetting st => _u <-? ensure_root_k o ; ROk (update_setting s st)
    | KForceHistory who era => force_history s o who era
    | KAddData who d =>
        _u <-? ensure_root_k o ; _u <-? check_credit_data s d ; do_add_credit s x who d
    | KBurnForCredit score => burn_for_credit s x o score
    | KNftClassCredit class credit =>
        _u <-? ensure_admin x o ; ROk (set_k_nft_credit s (<[class := credit]> (k_nft_credit s)))
    | KSetNftSum who credit =>
        _u <-? ensure_admin x o ; ROk (set_k_from_nft s (<[who := credit]> (k_from_nft s)))
    | KBurnNft class item => burn_nft s x o class item
    | KSetSwitch old new =>
        _u <-? ensure_admin x o ;
        _u <-? ensure (length old =? length new)%nat KCampaignIdNotMatch ;
        ROk (set_k_switch s (fold_left (fun m p => <[p.1 := p.2]> m) (combine old new) (k_switch s)))
    | KSetNoSwitch l =>
        _u <-? ensure_admin x o ;
        ROk (set_k_noswitch s (fold_left (fun m a => <[a := true]> m) l (k_noswitch s)))
    | KSetBalances l => _u <-? ensure_admin x o ; ROk (set_k_balances s l)
    | KSetUsdtBalances l => _u <-? ensure_admin x o ; ROk (set_k_usdt_balances s l)
    | KSetDefaultId id => _u <-? ensure_admin x o ; ROk (set_k_default_id s id)
    | KSetStaking l =>
        _u <-? ensure_admin x o ;
        ROk (set_k_ustake s (fold_left (fun m p => <[p.1 := p.2]> m) l (k_ustake s)))
    | KUnstakingSlash who => _u <-? ensure_admin x o ; unstaking_slash s x who
    | KExternalData who d =>
        _u <-? ensure_admin x o ; _u <-? check_credit_data s d ; do_add_credit s x who d
    | KSetRate rate => _u <-? ensure_admin x o ; ROk (set_k_rate s (Some rate))
    | KSetPrice price => submit_price s x o price
    | KUnsetStaking who => _u <-? ensure_admin x o ; ROk (set_k_stakebal s (delete who (k_stakebal s)))
    | KSetMaintain who =>
        _u <-? ensure_device_admin x o ;
        ROk (if bool_decide (who ∈ k_maintain s) then s else set_k_maintain s (k_maintain s ++ [who]))
    | KUnsetMaintain who =>
        _u <-? ensure_device_admin x o ;
        ROk (match list_find (fun a => a = who) (k_maintain s) with
             | Some (i, _) => set_k_maintain s (take i (k_maintain s) ++ drop (S i) (k_maintain s))
             | None => s
             end)
    | KSetDprPerCredit amount => _u <-? ensure_root_k o ; ROk (set_k_dpr_per_credit s amount)
    end.

  (** Transactional dispatch. *)
  Definition kstep (s : kstate) (x : kctx) (o : origin) (c : kcall) : kstate * res kerr unit :=
    match kexec s x o c with
    | ROk s' => (s', ROk tt)
    | RErr e => (s, RErr e)
    | RPanic => (s, RPanic)
    end.

  (** lib.rs:416-444 on_initialize. *)
  Definition on_initialize (s : kstate) (x : kctx) : kstate :=
    if kx_now x mod kc_bpe cfg =? 0 then
      if k_change_era s =? 0 then s else
      let n := era_of (kx_now x) - k_change_era s in
      let times := n / 180 in
      if (n mod 180 =? 0) && (0 <? times) && (times <=? 5)
      then fold_left update_setting (sub_genesis_apy times) s else s
    else s.

  (** lib.rs:446-472 on_runtime_upgrade ([times as u8] wraps). *)
  Definition on_upgrade (s : kstate) (x : kctx) : kstate :=
    if k_version s =? 4 then
      let s1 := fold_left update_setting half_campaign8 s in
      let times := (era_of (kx_now x) - k_change_era s) / 180 in
      let s2 := fold_left update_setting (half_campaign7 (10 - w8 times)) s1 in
      set_k_version s2 5
    else s.

  (** Entry points of other pallets; a panic takes down the caller. *)
  Definition kentry_exec (s : kstate) (x : kctx) (e : kentry) : res kerr (kstate * kout) :=
    match e with
    | KEvmUpdate caller user score add =>
        p <-? evm_update s x caller user score add ; ROk (fst p, KBool (snd p))
    | KSlash who score => s' <-? slash_credit s x who score ; ROk (s', KDone)
    | KGetReward who from to => p <-? get_reward s x who from to ; ROk (fst p, KReward (snd p))
    | KTraffic who => s' <-? by_traffic s x who ; ROk (s', KDone)
    | KTip who add => s' <-? by_tip s x who add ; ROk (s', KDone)
    | KInitHistory who => let '(s', b) := init_delegator_history s x who in ROk (s', KBool b)
    | KAddOrUpdate who gap camp => s' <-? add_or_update s x who gap camp ; ROk (s', KDone)
    | KStakingBalance who usdt dpr => ROk (set_staking_balance s who usdt dpr, KDone)
    | KUnstaking who => s' <-? unstaking_slash s x who ; ROk (s', KDone)
    | KBurnRecord amount => ROk (burn_record s x amount, KBool true)
    | KInitialize => ROk (on_initialize s x, KDone)
    | KFinalize => ROk (set_price s, KDone)
    | KUpgrade => ROk (on_upgrade s x, KDone)
    | KNftSet class item owner =>
        ROk (set_k_nft_owner s (partial_alter (fun _ => owner) (class, item) (k_nft_owner s)), KDone)
    | KNftAdmin class admin => ROk (set_k_nft_admin s (<[class := admin]> (k_nft_admin s)), KDone)
    end.
  Definition kentry_step (s : kstate) (x : kctx) (e : kentry) : kstate * res kerr kout :=
    match kentry_exec s x e with
    | ROk (s', r) => (s', ROk r)
    | RErr e => (s, RErr e)
    | RPanic => (s, RPanic)
    end.

  Definition kop : Type := kctx * (origin * kcall + kentry).
  Definition kdo (s : kstate) (op : kop) : kstate :=
    match snd op with
    | inl (o, c) => fst (kstep s (fst op) o c)
    | inr e => fst (kentry_step s (fst op) e)
    end.
  Definition krun (s : kstate) (h : list kop) : kstate := fold_left kdo h s.
End model.

(** lib.rs:225-298 storage defaults. *)
Definition def_balances : list N :=
  map (fun x => x * DPR) [1000; 5000; 10000; 20000; 30000; 50000; 60000; 80000; 100000].
Definition def_usdt_balances : list N :=
  map (fun x => x * DPR) [50; 75; 125; 200; 300; 450; 600; 800; 1000].
Definition def_gen_balances : list N :=
  map (fun x => x * DPR) [1000; 20000; 46800; 76800; 138000; 218000; 288000; 368000; 468000].

(** lib.rs:336-347 genesis build. *)
Definition kinit (b : bank) (settings : list setting) (data : list (N * cdata)) : kstate :=
  let s0 := KState b ∅ ∅ ∅ ∅ 0 ∅ ∅ ∅ ∅ ∅ ∅ ∅ def_balances def_usdt_balances def_gen_balances ∅
              8 5 None None ∅ [] [] 0 (50 * DPR) 5 ∅ ∅ in
  let s1 := fold_left update_setting settings s0 in
  set_k_uc s1 (fold_left (fun m p => <[p.1 := p.2]> m) data ∅).
