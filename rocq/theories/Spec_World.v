(** What users of the whole chain rely on: the amount of DPR, what stands behind the
    reserved balances, and who has which power. *)
From Verif Require Import Base Balances Model_UserPrivileges Spec_UserPrivileges.
From Verif Require Model_Credit Model_Staking Model_DeeperNode Model_CreditAccumulation.
From Verif Require Model_Micropayment Model_Operation Model_Adsc Model_Tips Spec_Tips Spec_Micropayment.
From Verif Require Import Model_Chain Model_World.
From stdpp Require Import gmap.
Open Scope N_scope.

(** Every step with its outcome. *)
Definition wlog (cfg : wcfg) (w : wstate) (h : list wop) : list (wop * wout) := zip h (wouts cfg w h).

(** ** The amount of DPR *)

(** All DPR: free and reserved on accounts, in channels, and destroyed. *)
Definition supply (w : wstate) : N :=
  msum (fun _ a => free a + rsv a) (accts (w_bank w))
  + msum (fun _ ch => Model_Micropayment.c_balance ch) (Model_Micropayment.m_chan (w_chan w))
  + lost (w_bank w).
(** New DPR according to the events: rewards, delegators' pay, mints for nPoW and
    compensations (staking), and released stakes (operation). *)
Definition issued (e : wev) : N :=
  match e with
  | VStaking (Model_Staking.KMint _ _ v) => v
  | VRelease (Model_Operation.EReleased _ v) => v
  | _ => 0
  end.
(** New DPR in the ADSC pool: what Root adds, and 100 million at the first upgrade. *)
Definition pooled (upgraded : bool) (a : wact) : N :=
  match a with
  | WAdsc Root (Model_Adsc.AAddPool v) => v
  | WBlock (BAdsc Model_Adsc.AUpgrade) => if upgraded then 0 else 100000000 * Model_Adsc.DPR
  | _ => 0
  end.
Definition created1 (upgraded : bool) (e : wop * wout) : N :=
  match e.2 with WDone ev => lsum (map issued ev) + pooled upgraded e.1.2 | _ => 0 end.
Definition upgrades (a : wact) : bool :=
  match a with WBlock (BAdsc Model_Adsc.AUpgrade) => true | _ => false end.
Fixpoint created (upgraded : bool) (l : list (wop * wout)) : N :=
  match l with
  | [] => 0
  | e :: r => created1 upgraded e + created (upgraded || upgrades e.1.2) r
  end.

(** ** Deposits *)

(** What the chain owes an account for its reserved balance: the deposit of a
    registered device, the deposits of the tips it reported, what locker members had
    reserved for it, and the deposits of other pallets. *)
Definition deposits (cfg : wcfg) (w : wstate) (a : N) : N :=
  (if decide (Model_DeeperNode.d_dev (w_node w) !! a = None) then 0 else Model_DeeperNode.d_minlock (wc_node cfg))
  + msum (fun _ t => if Model_Tips.ot_finder t =? a then Model_Tips.ot_deposit t else 0) (Model_Tips.t_tips (w_tips w))
  + default 0 (w_locked w !! a) + default 0 (w_held w !! a).

(** ** Powers *)

(** Privileges according to the calls made: only Root gives and takes those of
    accounts, only a holder of EvmAddressSetter those of EVM addresses. *)
Definition granted (h : list wop) : holds :=
  fold_left (fun g op => match op.2 with WPriv o c => spec_call g o c | _ => g end) h nobody.

(** What a call needs: any origin, a signature, Root, an account with a privilege, an
    elected member, or the origin that may reject tips. *)
Inductive power := PAny | PSigned | PRoot | POfficer (p : privilege) | PTipper | PReject.
Definition has_power (g : holds) (x : wctx) (o : origin) (p : power) : Prop :=
  match p with
  | PAny => True
  | PSigned => exists a, o = Signed a
  | PRoot => o = Root
  | POfficer q => exists a, o = Signed a /\ acc_holds g a q = true
  | PTipper => exists a, o = Signed a /\ a ∈ wx_members x
  | PReject => wx_reject x = true
  end.

Definition priv_power (c : ucall) : power :=
  match c with USetUser _ _ | UUnsetUser _ _ | UClearUser _ => PRoot | _ => POfficer EvmAddressSetter end.
Definition proof_power (c : Model_CreditAccumulation.acall) : power :=
  match c with Model_CreditAccumulation.AAddCredit _ _ => PSigned | _ => PRoot end.
Definition credit_power (c : Model_Credit.kcall) : power :=
  match c with
  | Model_Credit.KBurnForCredit _ | Model_Credit.KBurnNft _ _ => PSigned
  | Model_Credit.KUpdateSetting _ | Model_Credit.KForceHistory _ _ | Model_Credit.KAddData _ _
  | Model_Credit.KSetDprPerCredit _ => PRoot
  | Model_Credit.KSetPrice _ => POfficer OracleWorker
  | Model_Credit.KSetMaintain _ | Model_Credit.KUnsetMaintain _ => POfficer DeviceAdmin
  | _ => POfficer CreditAdmin
  end.
Definition staking_power (c : jcall) : power :=
  match c with
  | JForceUndelegate _ => PRoot
  | JOf k =>
      match k with
      | Model_Staking.KReap _ _ => PAny
      | Model_Staking.KSetED _ | Model_Staking.KSetReward _ | Model_Staking.KSetCount _ | Model_Staking.KIncCount _
      | Model_Staking.KScaleCount _ | Model_Staking.KForce _ | Model_Staking.KSetInvul _ | Model_Staking.KSetWhite _
      | Model_Staking.KForceUnstake _ _ | Model_Staking.KIncrease _ | Model_Staking.KCancel _ _
      | Model_Staking.KSetDepth _ | Model_Staking.KForceUndelegate _ | Model_Staking.KSetMin _ => PRoot
      | Model_Staking.KBlackAdd _ _ | Model_Staking.KBlackRemove _ => POfficer BlackListAdmin
      | Model_Staking.KCompensate _ _ _ => POfficer ReleaseSetter
      | Model_Staking.KNpow _ _ => POfficer NpowMint
      | Model_Staking.KUsdtDelegate _ _ _ | Model_Staking.KSetReferer _ _ | Model_Staking.KUnsetReferer _
      | Model_Staking.KForceUnstakingDelegate _ | Model_Staking.KUnsetBalance _ => POfficer CreditAdmin
      | _ => PSigned
      end
  end.
Definition operation_power (c : Model_Operation.ocall) : power :=
  match c with
  | Model_Operation.ORemoveLock _ | Model_Operation.OSetLimits _ _ | Model_Operation.OUnlockDemocracy _ _ _ => PRoot
  | Model_Operation.OReserve _ _ => POfficer LockerMember
  | Model_Operation.OUnstake _ _ _ _ | Model_Operation.ORemoveInfo _ => POfficer ReleaseSetter
  | Model_Operation.OSetPool _ | Model_Operation.OBridgeOut _ _ _ | Model_Operation.OBridgeIn _ _ _ => POfficer BridgeAdmin
  | Model_Operation.OBurn _ | Model_Operation.OApply _ _ => PSigned
  end.
Definition adsc_power (c : Model_Adsc.acall) : power :=
  match c with
  | Model_Adsc.ASwap _ => PSigned
  | Model_Adsc.AAddPool _ => PRoot
  | _ => POfficer CreditAdmin
  end.
Definition tips_power (c : Model_Tips.tcall) : power :=
  match c with
  | Model_Tips.TTipNew _ _ _ | Model_Tips.TTip _ _ | Model_Tips.TCreditNew _ _ _ | Model_Tips.TCreditTip _ _ => PTipper
  | Model_Tips.TSlash _ => PReject
  | Model_Tips.TSetOwner _ => PRoot
  | _ => PSigned
  end.

(** The origin of a call and what the call needs. *)
Definition needs (a : wact) : option (origin * power) :=
  match a with
  | WPriv o c => Some (o, priv_power c)
  | WProof o c => Some (o, proof_power c)
  | WNode o _ => Some (o, PSigned)
  | WCredit o c => Some (o, credit_power c)
  | WStaking o c => Some (o, staking_power c)
  | WOperation o c => Some (o, operation_power c)
  | WAdsc o c => Some (o, adsc_power c)
  | WTips o c => Some (o, tips_power c)
  | WEvm _ _ _ _ | WChannel _ _ | WBlock _ | WTransfer _ _ _ | WReserve _ _ | WRelease _ _ => None
  end.
(** Who may do this. *)
Definition allowed (g : holds) (x : wctx) (a : wact) : Prop :=
  match needs a with
  | Some (o, p) => has_power g x o p
  | None => match a with WEvm caller _ _ _ => evm_holds g caller EvmCreditOperation = true | _ => True end
  end.
(** The call does something: it succeeds; the calls of the ADSC bridge and of the
    precompile also succeed without doing anything. *)
Definition effective (w w' : wstate) (a : wact) (ev : list wev) : Prop :=
  match a with
  | WAdsc _ _ => ~ VAdsc Model_Adsc.EBridgeFailed ∈ ev
  | WEvm _ _ _ _ => Model_Credit.k_uc (j_c (w_chain w')) <> Model_Credit.k_uc (j_c (w_chain w))
  | _ => True
  end.

(** ** Who makes DPR *)

(** The delegators' pay, the validators' pay, released stakes, the first upgrade of the
    ADSC pallet, Root filling its pool, a holder of NpowMint and a holder of
    ReleaseSetter. *)
Definition may_create (g : holds) (a : wact) : Prop :=
  match a with
  | WBlock BStakingInit | WBlock (BEndSession _) | WBlock BRelease | WBlock (BAdsc Model_Adsc.AUpgrade) => True
  | WAdsc Root (Model_Adsc.AAddPool _) => True
  | WStaking (Signed me) (JOf (Model_Staking.KNpow _ _)) => acc_holds g me NpowMint = true
  | WStaking (Signed me) (JOf (Model_Staking.KCompensate _ _ _)) => acc_holds g me ReleaseSetter = true
  | _ => False
  end.
