(** What the whole chain keeps about an account besides its money, and who is an ordinary
    account. *)
From Verif Require Import Base Balances Model_UserPrivileges Spec_UserPrivileges.
From Verif Require Model_Credit Model_Staking Model_StakingLedger Spec_Staking Model_DeeperNode Model_CreditAccumulation.
From Verif Require Model_Operation Model_Adsc Model_Tips.
From Verif Require Import Model_Chain Model_World Spec_World.
From Verif Require Spec_World6.
From stdpp Require Import gmap.
Open Scope N_scope.

Record affairs := Affairs {
  (* credit *)
  af_record : option Model_Credit.cdata; af_history : option (list (N * Model_Credit.cdata));
  af_bought : option N; af_from_nft : option N; af_usdt : option (N * N);
  af_last_era : option N; af_last_time : option N; af_stays : option bool; af_maintained : bool;
  (* traffic claims and devices *)
  af_nonce : option N; af_device : option Model_DeeperNode.node; af_report : option (N * N * N);
  af_heartbeat : option N; af_onboard : option N; af_address : option N;
  (* delegation *)
  af_delegation : option Model_Staking.drec; af_black : option N; af_referer : option N;
  af_referees : option N; af_prepaid : option N;
  (* the stake *)
  af_controller : option N; af_stake : option Model_StakingLedger.ledger; af_payee : option Model_Staking.payee;
  af_candidate : bool;
  (* releases, ADSC, deposits *)
  af_release : option Model_Operation.sched; af_adsc : option N; af_locked : option N; af_held : option N }.

Definition affairs_of (w : wstate) (a : N) : affairs :=
  let c := j_c (w_chain w) in
  let s := j_s (w_chain w) in
  let k := Model_Staking.k_stk s in
  let d := Model_Staking.k_del s in
  let n := w_node w in
  Affairs
    (Model_Credit.k_uc c !! a) (Model_Credit.k_hist c !! a) (Model_Credit.k_ustake c !! a)
    (Model_Credit.k_from_nft c !! a) (Model_Credit.k_stakebal c !! a)
    (Model_Credit.k_last_era c !! a) (Model_Credit.k_last_ts c !! a) (Model_Credit.k_noswitch c !! a)
    (bool_decide (a ∈ Model_Credit.k_maintain c))
    (Model_CreditAccumulation.a_nonce (w_proofs w) !! a) (Model_DeeperNode.d_dev n !! a) (Model_DeeperNode.d_proof n !! a)
    (Model_DeeperNode.d_online n !! a) (Model_DeeperNode.d_onboard n !! a) (Model_DeeperNode.d_d2e n !! a)
    (Model_Staking.d_recs d !! a) (Model_Staking.d_black d !! a) (Model_Staking.d_ref d !! a)
    (Model_Staking.d_refc d !! a) (Model_Staking.d_bal d !! a)
    (Model_Staking.s_bonded k !! a) (Spec_Staking.stake_of s a) (Model_Staking.s_payee k !! a)
    (bool_decide (a ∈ Model_Staking.s_valid k))
    (Model_Operation.o_info (w_rel w) !! a) (Model_Adsc.a_stakers (w_adsc w) !! a)
    (w_locked w !! a) (w_held w !! a).

(** Root has given [me] no privilege, or has taken it back. *)
Definition ordinary (h : list wop) (me : N) : Prop := forall q, acc_holds (granted h) me q = false.
(** What [me] may do to the affairs of [you]: manage the stake of which [you] has made it
    the controller, remove a stake whose account has only the existential deposit left, and
    close a tip in credits for [you], which the elected members have declared. *)
Definition on_behalf (cfg : wcfg) (w : wstate) (me : N) (a : wact) (you : N) : Prop :=
  match a with
  | WStaking _ (JOf (Model_Staking.KReap st _)) =>
      st = you /\ free_of (w_bank w) you + rsv (acct_of (w_bank w) you) = Model_Staking.kc_ed (jc_s (wc_chain cfg))
  | WStaking _ (JOf (Model_Staking.KUnbond _ | Model_Staking.KWithdraw _ | Model_Staking.KRebond _ | Model_Staking.KBurnStake _
      | Model_Staking.KValidate | Model_Staking.KChill | Model_Staking.KSetPayee _)) =>
      Model_Staking.s_bonded (Model_Staking.k_stk (j_s (w_chain w))) !! you = Some me
  | WTips _ (Model_Tips.TCreditClose t) =>
      exists tip, Model_Tips.t_tips (w_tips w) !! t = Some tip /\ Model_Tips.ot_who tip = you
  | _ => False
  end.
(** Every step of [h] after [h0] is signed by an ordinary account other than [you] and is
    not on behalf of [you]. *)
Fixpoint by_others (cfg : wcfg) (h0 : list wop) (w : wstate) (h : list wop) (you : N) : Prop :=
  match h with
  | [] => True
  | op :: r =>
      (exists me, Spec_World6.signer op.2 = Some me /\ me <> you /\ ordinary h0 me /\ ~ on_behalf cfg w me op.2 you) /\
      by_others cfg (h0 ++ [op]) (wstep cfg w op).1 r you
  end.

(** The calls by which [you] manages the stake it controls, ends its delegation, and keeps
    or gives up its device. *)
Definition manages (a : wact) (you : N) : Prop :=
  match a with
  | WStaking (Signed c) (JOf (Model_Staking.KUnbond _ | Model_Staking.KRebond _ | Model_Staking.KBurnStake _
      | Model_Staking.KValidate | Model_Staking.KChill | Model_Staking.KSetPayee _ | Model_Staking.KUndelegate)) => c = you
  | WNode (Signed c) (Model_DeeperNode.DUnregister | Model_DeeperNode.DRegisterServer _ | Model_DeeperNode.DUpdateServer _
      | Model_DeeperNode.DUnregisterServer | Model_DeeperNode.DImOnline | Model_DeeperNode.DNpowReward) => c = you
  | _ => False
  end.
Definition succeeds (cfg : wcfg) (w : wstate) (op : wop) : Prop := exists ev, (wstep cfg w op).2 = WDone ev.
