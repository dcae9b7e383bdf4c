(** Which calls bring down the block they are in. *)
From Verif Require Import Base Balances Model_UserPrivileges.
From Verif Require Model_Credit Model_Staking Model_DeeperNode Model_Adsc Model_Tips Spec_Tips.
From Verif Require Import Model_Chain Model_World Spec_World Spec_World2 Spec_World3.
From stdpp Require Import gmap sorting.
Open Scope N_scope.

(** [op] is a call or a transfer, not a hook of the block. *)
Definition is_call (op : wop) : Prop := match op.2 with WBlock _ => False | _ => True end.
(** Members come sorted and without repetition, amounts fit u128 and indices u32. *)
Definition well_typed (op : wop) : Prop :=
  match op.2 with
  | WTips _ c => StronglySorted N.lt (wx_members op.1) /\ Spec_Tips.arg_ok c
  | WStaking _ (JOf (Model_Staking.KCancel _ l)) => Forall (fun i => i < 2 ^ 32) l
  | _ => True
  end.

(** The account owns the ADSC that it wants to swap and the pallet can take them. *)
Definition can_give_adsc (cfg : wcfg) (w : wstate) (who amount : N) : Prop :=
  exists l, Model_Adsc.a_ass (w_adsc w) = Some l /\
    is_Some (Model_Adsc.atransfer l who (Model_Adsc.ac_acct (wc_adsc cfg)) amount).
(** Tip [k] can be closed, and no present member has named a value of this kind for it. *)
Definition valueless (cfg : wcfg) (g : wstate) (h : list wop) (x : wctx) (ch : Spec_Tips.chan) (k : N) : Prop :=
  exists t n, Model_Tips.t_tips (w_tips (wrun cfg g h)) !! k = Some t /\ Model_Tips.ot_closes t = Some n /\ n <= wx_now x /\
    Spec_Tips.declared (wc_tips cfg) ch
      (Spec_Tips.tlog (wc_tips cfg) (Model_Tips.tgenesis (w_bank g)) (view cfg (tips_view1 cfg) g h)) k (wx_members x) = [].
(** One of the accounts has no credit record, be it that an earlier entry removes it
    (the largest penalty does). *)
Definition penalty_for_none (w : wstate) (l : list (N * N)) : Prop :=
  exists l1 a p l2, l = l1 ++ (a, p) :: l2 /\ p <> Model_Credit.U64MAX /\
    (record w a = None \/ (a, Model_Credit.U64MAX) ∈ l1).

(** A swap at a rate of zero, the closing of a tip without value, a penalty for an account
    without credit. *)
Definition brings_down (cfg : wcfg) (g : wstate) (h : list wop) (op : wop) : Prop :=
  let w := wrun cfg g h in
  match op.2 with
  | WAdsc (Signed who) (Model_Adsc.ASwap amount) => (Model_Adsc.a_rate (w_adsc w)).1 = 0 /\ can_give_adsc cfg w who amount
  | WTips (Signed _) (Model_Tips.TClose k) => valueless cfg g h op.1 Spec_Tips.Coin k
  | WTips (Signed _) (Model_Tips.TCreditClose k) => valueless cfg g h op.1 Spec_Tips.Cred k
  | WStaking Root (JForceUndelegate l) => penalty_for_none w l
  | WStaking Root (JOf (Model_Staking.KForceUndelegate l)) => exists a, a ∈ l /\ record w a = None
  | WEvm caller user points false =>
      has_evm_privilege (w_priv w) caller EvmCreditOperation = true /\ points <> Model_Credit.U64MAX /\
      exists a, bound w user a /\ record w a = None
  | _ => False
  end.
