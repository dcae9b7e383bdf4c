(** Vocabulary for the credit properties, independent of the model's helpers. *)
From Verif Require Import Base Balances Model_UserPrivileges Model_Credit.
From stdpp Require Import gmap.
Open Scope N_scope.

(** Levels are bands of 100 points, the last one open. *)
Definition band (score : N) : N := N.min (score / 100) 8.
Definition level_ok (d : cdata) : Prop := cd_level d = band (cd_credit d).

(** The era of a block. *)
Definition era_at (cfg : kcfg) (block : N) : N := block / kc_bpe cfg.

(** A credit history with strictly increasing eras. *)
Fixpoint increasing (h : list (N * cdata)) : Prop :=
  match h with
  | [] => True
  | (e, _) :: r => match r with [] => True | (e', _) :: _ => e < e' end /\ increasing r
  end.

(** The record in force at an era: the last one made at or before it. *)
Definition in_force (h : list (N * cdata)) (e : N) : option cdata :=
  snd <$> last (filter (fun p => p.1 <= e) h).

(** The eras from [a] to [b]. *)
Definition eras (a b : N) : list N :=
  map (fun i => a + N.of_nat i) (seq 0 (N.to_nat (b + 1 - a))).

(** Block numbers never go down, and stay at or below [t]. *)
Fixpoint chrono (from : N) (h : list kop) (t : N) : Prop :=
  match h with
  | [] => from <= t
  | (x, _) :: r => from <= kx_now x /\ chrono (kx_now x) r t
  end.

(** Root may move the start of a history only to an era already reached. *)
Definition past_only (cfg : kcfg) (op : kop) : Prop :=
  match snd op with
  | inl (_, KForceHistory _ era) => era <= era_at cfg (kx_now (fst op))
  | _ => True
  end.

(** Arguments fit their Rust types where it matters: balances are u128. *)
Definition setting_typed (st : setting) : Prop := st_bal st < two128 /\ st_apy st <= 100 /\ st_bonus st <= 100.
Definition typed_op (op : kop) : Prop :=
  match snd op with
  | inl (_, KUpdateSetting st) => setting_typed st
  | _ => True
  end.

(** The daily reward of a credit record: USDT campaign 5 pays the yearly rate of
    the staked dollars at the current price divided by 365; any other campaign
    pays the base reward of the current level plus the bonus of the initial
    level for ranked users. *)
Definition base_reward (s : kstate) (camp lvl : N) : N := fst (default (0, 0) (k_poc s !! (camp, lvl))).
Definition bonus_reward (s : kstate) (camp lvl : N) : N := snd (default (0, 0) (k_poc s !! (camp, lvl))).
Definition the_setting (s : kstate) (camp lvl : N) : setting := default setting0 (k_settings s !! (camp, lvl)).
Definition staked_dollars (s : kstate) (who : N) : N :=
  match k_stakebal s !! who with Some (u, _) => u | None => 25 * DPR end.
Definition daily (s : kstate) (who : N) (d : cdata) : N :=
  if cd_camp d =? 5 then
    match k_price s with
    | None => 0
    | Some p => frac_mul (st_apy (the_setting s 5 (cd_level d))) 100 (staked_dollars s who * DPR / p) / 365
    end
  else
    base_reward s (cd_camp d) (cd_level d)
    + (if cd_rank d <=? st_maxrank (the_setting s (cd_camp d) (cd_init d))
       then bonus_reward s (cd_camp d) (cd_init d) - base_reward s (cd_camp d) (cd_init d) else 0).

(** What era [e] pays to [who]: the daily reward of the record in force then,
    if its score is at least the delegation threshold. *)
Definition era_pay (cfg : kcfg) (s : kstate) (who e : N) : option N :=
  match in_force (default [] (k_hist s !! who)) e with
  | Some d => if kc_min cfg <=? cd_credit d then Some (daily s who d) else None
  | None => None
  end.
(** The eras of a claim that pay: not beyond the end of the reward period. *)
Definition paid_eras (cfg : kcfg) (s : kstate) (who from to : N) : list N :=
  match k_uc s !! who, default [] (k_hist s !! who) with
  | Some d, (e0, _) :: _ =>
      if cd_eras d =? 0 then []
      else omap (era_pay cfg s who) (eras from (N.min to (e0 + cd_eras d - 1)))
  | _, _ => []
  end.
(** The reward of a claim: the sum over its eras, at most the largest u128. *)
Definition claim_reward (cfg : kcfg) (s : kstate) (who from to : N) : option N :=
  match paid_eras cfg s who from to with
  | [] => None
  | l => Some (N.min (lsum l) (two128 - 1))
  end.

(** Score of a user. *)
Definition score_of (s : kstate) (who : N) : option N := cd_credit <$> k_uc s !! who.

(** Did the call succeed? *)
Definition accepted (cfg : kcfg) (s : kstate) (op : kop) : bool :=
  match snd op with
  | inl (o, c) => is_ok (snd (kstep cfg s (fst op) o c))
  | inr e => is_ok (snd (kentry_step cfg s (fst op) e))
  end.

(** Prices accepted since the last end of a block. *)
Fixpoint block_prices (cfg : kcfg) (s : kstate) (h : list kop) (acc : list N) : list N :=
  match h with
  | [] => acc
  | op :: r =>
      block_prices cfg (kdo cfg s op) r
        (match snd op with
         | inl (_, KSetPrice p) => if accepted cfg s op then acc ++ [p] else acc
         | inr KFinalize => []
         | _ => acc
         end)
  end.

(** Points an account was given for burned NFTs: for every successful burn, the
    points its class was worth at that time. *)
Fixpoint nft_points (cfg : kcfg) (s : kstate) (h : list kop) (who : N) : N :=
  match h with
  | [] => 0
  | op :: r =>
      (match snd op with
       | inl (Signed a, KBurnNft class _) =>
           if (a =? who) && accepted cfg s op then default 0 (k_nft_credit s !! class) else 0
       | _ => 0
       end) + nft_points cfg (kdo cfg s op) r who
  end.

(** Neither an administrator's reset of an NFT total nor an absurd class value. *)
Definition no_nft_reset (op : kop) : Prop :=
  match snd op with inl (_, KSetNftSum _ _) => False | _ => True end.
Definition nft_value_small (op : kop) : Prop :=
  match snd op with inl (_, KNftClassCredit _ c) => c < 2 ^ 63 | _ => True end.

(** Genesis campaign: yearly rates of campaign 8 by level, in percent. *)
Definition rate8 (lvl : N) : N :=
  match lvl with 1 => 5 | 2 => 8 | 3 => 9 | 4 => 10 | 5 => 12 | 6 => 13 | 7 => 14 | 8 => 15 | _ => 0 end.

(** Times (unix seconds) of the traffic updates that changed the score of [who]. *)
Fixpoint raise_times (cfg : kcfg) (s : kstate) (h : list kop) (who : N) : list N :=
  match h with
  | [] => []
  | op :: r =>
      (match snd op with
       | inr (KTraffic w) =>
           if (w =? who) && negb (bool_decide (score_of (kdo cfg s op) who = score_of s who))
           then [kx_secs (fst op)] else []
       | _ => []
       end) ++ raise_times cfg (kdo cfg s op) r who
  end.
(** Each number exceeds the one before by at least [gap]. *)
Fixpoint spaced (gap : N) (l : list N) : Prop :=
  match l with
  | [] => True
  | t :: r => match r with [] => True | t' :: _ => t + gap <= t' end /\ spaced gap r
  end.

(** Points bought by staking since the last unstaking of [who]. *)
Fixpoint staked_points (cfg : kcfg) (s : kstate) (h : list kop) (who acc : N) : N :=
  match h with
  | [] => acc
  | op :: r =>
      staked_points cfg (kdo cfg s op) r who
        (match snd op with
         | inr (KAddOrUpdate w gap _) => if (w =? who) && accepted cfg s op then acc + gap else acc
         | inr (KUnstaking w) | inl (_, KUnstakingSlash w) =>
             if (w =? who) && accepted cfg s op then 0 else acc
         | _ => acc
         end)
  end.
(** The administrator does not overwrite the staked points. *)
Definition no_staking_set (op : kop) : Prop :=
  match snd op with inl (_, KSetStaking _) => False | _ => True end.
