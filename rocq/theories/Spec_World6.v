(** What a step of the whole chain may cost an account. *)
From Verif Require Import Base Balances Model_UserPrivileges.
From Verif Require Model_Credit Spec_Credit Model_Staking Spec_Staking2 Model_StakingLedger Model_DeeperNode.
From Verif Require Model_Micropayment Spec_Micropayment Model_Operation Model_Adsc Model_Tips Spec_Tips.
From Verif Require Import Model_Chain Spec_Chain2 Model_World Spec_World Spec_World2.
From stdpp Require Import gmap.
Open Scope N_scope.

(** What an account owns: its free and reserved balance, and the money in the channels it
    opened. *)
Definition in_channels (w : wstate) (a : N) : N :=
  msum (fun k ch => if k.1 =? a then Model_Micropayment.c_balance ch else 0) (Model_Micropayment.m_chan (w_chan w)).
Definition owned (w : wstate) (a : N) : N :=
  free_of (w_bank w) a + rsv (acct_of (w_bank w) a) + in_channels w a.

(** All pallets use the same existential deposit. *)
Definition one_deposit (cfg : wcfg) (ed : N) : Prop :=
  Model_DeeperNode.d_ed (wc_node cfg) = ed /\ Model_Micropayment.m_ed (wc_chan cfg) = ed /\
  Model_Operation.oc_ed (wc_rel cfg) = ed /\ Model_Adsc.ac_ed (wc_adsc cfg) = ed /\
  Model_Tips.tc_ed (wc_tips cfg) = ed /\ Model_Credit.kc_ed (jc_c (wc_chain cfg)) = ed /\
  Model_Staking.kc_ed (jc_s (wc_chain cfg)) = ed.

(** The difference of two levels on the price list of an account's campaign. *)
Definition level_price (w : wstate) (who level : N) : N :=
  let c := j_c (w_chain w) in
  match Model_Credit.k_uc c !! who with
  | Some d =>
      let prices := tariff c (Model_Credit.cd_camp d) in
      default 0 (prices !! N.to_nat level) - default 0 (prices !! N.to_nat (Spec_Credit.band (Model_Credit.cd_credit d)))
  | None => 0
  end.
(** The stash whose stake the account [c] controls. *)
Definition stash_of (w : wstate) (c : N) : option N :=
  Model_StakingLedger.l_stash <$> Model_Staking.s_ledger (Model_Staking.k_stk (j_s (w_chain w))) !! c.
(** What an event of the micropayment pallet costs [a]: a payment its amount, a closing
    the fee; an account with less than the existential deposit may not get the refund. *)
Definition channel_cost (cfg : wcfg) (ed : N) (w : wstate) (a : N) (e : Model_Micropayment.mevent) : N :=
  match e with
  | Model_Micropayment.ClaimPayment c _ v => if c =? a then v else 0
  | Model_Micropayment.ChannelClosed c v _ =>
      if c =? a then
        let left := match Model_Micropayment.m_chan (w_chan w) !! (c, v) with Some ch => Model_Micropayment.c_balance ch | None => 0 end in
        if free_of (w_bank w) a <? ed then left else Spec_Micropayment.fee_of (wc_chan cfg) left
      else 0
  | _ => 0
  end.
(** The highest value declared for a tip. *)
Definition highest_vote (w : wstate) (h : N) : N :=
  match Model_Tips.t_tips (w_tips w) !! h with
  | Some t => fold_right (fun v m => N.max v.2 m) 0 (Model_Tips.ot_tips t)
  | None => 0
  end.
(** The price list. Everything else is free of charge:
    - a transfer, its amount;
    - burning for credit, the price of a point for each; buying a level, the difference;
    - burning for EZC, the amount;
    - a stake, what its controller burns and what is slashed;
    - a channel, what a voucher pays and the fee when it is closed;
    - a bridge admin's move, its amount, from the account it names or from the pool;
    - a move by democracy, its amount;
    - the account that pays tips, at most the highest value declared; the finder of a
      slashed tip, the deposit;
    - the account of the ADSC pool, what a swap pays out. *)
Definition price (cfg : wcfg) (ed : N) (w : wstate) (op : wop) (ev : list wev) (a : N) : N :=
  let if_is b v := if b =? a then v else 0 in
  match op.2 with
  | WTransfer from _ v => if_is from v
  | WCredit (Signed who) (Model_Credit.KBurnForCredit points) =>
      if_is who (Model_Credit.k_dpr_per_credit (j_c (w_chain w)) * (points mod 2 ^ 32))
  | WStaking (Signed who) (JOf (Model_Staking.KStakeDelegate level)) => if_is who (level_price w who level)
  | WStaking (Signed c) (JOf (Model_Staking.KBurnStake _)) =>
      if bool_decide (stash_of w c = Some a) then Spec_Staking2.burnt (omap staking_event ev) else 0
  | WBlock (BStartSession _) | WBlock (BOffence _ _) => Spec_Staking2.slash_sum a (omap staking_event ev)
  | WChannel _ _ =>
      lsum (map (fun e => match e with VChannel v => channel_cost cfg ed w a v | _ => 0 end) ev)
  | WOperation (Signed who) (Model_Operation.OBurn v) => if_is who v
  | WOperation (Signed _) (Model_Operation.OBridgeOut from v _) => if_is from v
  | WOperation (Signed _) (Model_Operation.OBridgeIn _ v _) =>
      match Model_Operation.o_fund (w_rel w) with Some pool => if_is pool v | None => 0 end
  | WOperation Root (Model_Operation.OUnlockDemocracy from _ v) => if_is from v
  | WTips (Signed _) (Model_Tips.TClose h) => if_is (Spec_Tips.tip_account (w_tips w)) (highest_vote w h)
  | WTips _ (Model_Tips.TSlash h) =>
      match Model_Tips.t_tips (w_tips w) !! h with
      | Some t => if_is (Model_Tips.ot_finder t) (Model_Tips.ot_deposit t)
      | None => 0
      end
  | WAdsc (Signed _) (Model_Adsc.ASwap _) =>
      lsum (map (fun e => match e with
                          | VAdsc (Model_Adsc.ESwap _ _ dpr) => if_is (Model_Adsc.ac_acct (wc_adsc cfg)) dpr
                          | _ => 0 end) ev)
  | _ => 0
  end.
(** The step costs [a] at most its price; an account whose free balance falls below the
    existential deposit may lose that rest, too. *)
Definition at_most (cfg : wcfg) (ed : N) (w : wstate) (op : wop) (w' : wstate) (ev : list wev) (a : N) : Prop :=
  let p := price cfg ed w op ev a in
  owned w a <= owned w' a + p \/
  (free_of (w_bank w) a < p + ed /\ owned w a < owned w' a + p + ed).
(** The prices of the steps of a history, for [a]. *)
Fixpoint bill (cfg : wcfg) (ed : N) (w : wstate) (h : list wop) (a : N) : N :=
  match h with
  | [] => 0
  | op :: r =>
      (match (wstep cfg w op).2 with WDone ev => price cfg ed w op ev a | _ => 0 end)
      + bill cfg ed (wstep cfg w op).1 r a
  end.
(** Each time [a] has on its free balance the price and the existential deposit. *)
Fixpoint solvent (cfg : wcfg) (ed : N) (w : wstate) (h : list wop) (a : N) : Prop :=
  match h with
  | [] => True
  | op :: r =>
      match (wstep cfg w op).2 with WDone ev => price cfg ed w op ev a + ed <= free_of (w_bank w) a | _ => True end
      /\ solvent cfg ed (wstep cfg w op).1 r a
  end.

(** Who signs a step. *)
Definition signer (a : wact) : option N :=
  let of_origin o := match o with Signed w => Some w | _ => None end in
  match a with
  | WPriv o _ | WProof o _ | WNode o _ | WCredit o _ | WStaking o _ | WOperation o _ | WAdsc o _ | WTips o _ => of_origin o
  | WChannel w _ | WTransfer w _ _ => Some w
  | _ => None
  end.
(** [a] has nothing at stake: it is no stash, has opened no channel, is not the finder of an
    open tip and none of the accounts from which tips, swaps and the bridge pay. *)
Definition uninvolved (cfg : wcfg) (w : wstate) (a : N) : Prop :=
  Model_Staking.s_bonded (Model_Staking.k_stk (j_s (w_chain w))) !! a = None /\ (forall c, stash_of w c <> Some a) /\
  (forall v, Model_Micropayment.m_chan (w_chan w) !! (a, v) = None) /\
  (forall h t, Model_Tips.t_tips (w_tips w) !! h = Some t -> Model_Tips.ot_finder t <> a) /\
  a <> Spec_Tips.tip_account (w_tips w) /\ a <> Model_Adsc.ac_acct (wc_adsc cfg) /\ Model_Operation.o_fund (w_rel w) <> Some a.
(** Moves out of any account, by an admin of the bridge or by a referendum. *)
Definition seized (a : wact) (b : N) : Prop :=
  match a with
  | WOperation (Signed _) (Model_Operation.OBridgeOut from _ _) | WOperation Root (Model_Operation.OUnlockDemocracy from _ _) => from = b
  | _ => False
  end.
