(** What each pallet of the whole chain sees of its history. *)
From Verif Require Import Base Balances Model_UserPrivileges.
From Verif Require Model_Credit Model_Staking Model_DeeperNode Model_CreditAccumulation.
From Verif Require Model_Micropayment Model_Operation Model_Adsc Model_Tips.
From Verif Require Spec_Staking Spec_Operation.
From Verif Require Import Model_Chain Model_World Spec_World.
From stdpp Require Import gmap.
Open Scope N_scope.

Section views.
  Context (cfg : wcfg).

  (** The step of the credit and staking pallets that a step of the chain contains, and
      the state in which it is made: a call or hook of theirs, or what another pallet
      asks of the credit pallet after its own work. *)
  Definition chain_part (w : wstate) (op : wop) : option (wstate * jact) :=
    let x := op.1 in
    match op.2 with
    | WCredit o c => Some (w, JCredit o c)
    | WStaking o c => Some (w, JCall o c)
    | WEvm caller user score add => Some (w, JEntry (Model_Credit.KEvmUpdate caller user score add))
    | WProof (Signed a) ((Model_CreditAccumulation.AAddCredit _ _) as c) =>
        let p := (Model_CreditAccumulation.astep (wc_verify cfg) (wc_hash cfg) (w_proofs w) (Signed a) c).1 in
        Some (set_w_proofs w p, JEntry (Model_Credit.KTraffic a))
    | WOperation o c =>
        let r := (Model_Operation.ostep (wc_rel cfg) (Model_Operation.set_o_bank (w_rel w) (w_bank w)) (octx cfg x w) o c).1 in
        match c with
        | Model_Operation.OUnstake who _ _ _ => Some (set_w_rel w r, JEntry (Model_Credit.KUnstaking who))
        | Model_Operation.OBurn amount => Some (set_w_rel w r, JEntry (Model_Credit.KBurnRecord amount))
        | _ => None
        end
    | WTips o c =>
        match Model_Tips.tstep (wc_tips cfg) (Model_Tips.set_bank (w_tips w) (w_bank w)) (Model_Tips.TCall (tctx x) o c) with
        | (t, Model_Tips.TDone (Model_Tips.TCredit who v :: _)) => Some (set_w_tips w t, JEntry (Model_Credit.KTip who v))
        | _ => None
        end
    | WBlock b =>
        let at_ a := Some (w, a) in
        match b with
        | BCreditInit => at_ (JEntry Model_Credit.KInitialize)
        | BCreditFinal => at_ (JEntry Model_Credit.KFinalize)
        | BCreditUpgrade => at_ (JEntry Model_Credit.KUpgrade)
        | BStakingInit => at_ JInit
        | BStakingFinal => at_ JFinal
        | BNewSession i => at_ (JNewSession i)
        | BStartSession i => at_ (JStartSession i)
        | BEndSession i => at_ (JEndSession i)
        | BAuthor a => at_ (JAuthor a)
        | BOffence os i => at_ (JOffence os i)
        | BNftSet class item owner => at_ (JEntry (Model_Credit.KNftSet class item owner))
        | BNftAdmin class admin => at_ (JEntry (Model_Credit.KNftAdmin class admin))
        | BRelease | BAdsc _ => None
        end
    | _ => None
    end.
  Definition rel_part (op : wop) : option (origin * Model_Operation.ocall + Model_Operation.oent) :=
    match op.2 with
    | WOperation o c => Some (inl (o, c))
    | WBlock BRelease => Some (inr Model_Operation.OFinalize)
    | _ => None
    end.
  Definition adsc_part (op : wop) : option (origin * Model_Adsc.acall + Model_Adsc.aent) :=
    match op.2 with
    | WAdsc o c => Some (inl (o, c))
    | WBlock (BAdsc e) => Some (inr e)
    | _ => None
    end.

  (** Before and after its own steps a pallet finds the balances changed by the others. *)
  Definition done (o : wout) : bool := match o with WDone _ => true | _ => false end.
  Definition chain_view1 (w : wstate) (op : wop) : list jop :=
    let x := op.1 in let r := wstep cfg w op in
    if done r.2 then
      match chain_part w op with
      | Some (w1, a) => [(wjctx cfg x w1, JBank (w_bank w1)); (wjctx cfg x w1, a)]
      | None => []
      end ++ [(wjctx cfg x w, JBank (w_bank r.1))]
    else [].
  Definition rel_view1 (w : wstate) (op : wop) : list Model_Operation.oop :=
    let x := octx cfg op.1 w in let r := wstep cfg w op in
    if done r.2 then
      match rel_part op with Some c => [(x, c)] | None => [] end ++ [(x, inr (Model_Operation.OBank (w_bank r.1)))]
    else [].
  Definition adsc_view1 (w : wstate) (op : wop) : list Model_Adsc.aop :=
    let x := actx cfg op.1 w in let r := wstep cfg w op in
    if done r.2 then
      match adsc_part op with Some c => [(x, c)] | None => [] end ++ [(x, inr (Model_Adsc.ABankMove (w_bank r.1)))]
    else [].
  Definition tips_view1 (w : wstate) (op : wop) : list Model_Tips.tiop :=
    let r := wstep cfg w op in
    if done r.2 then
      match op.2 with WTips o c => [Model_Tips.TCall (tctx op.1) o c] | _ => [] end ++ [Model_Tips.TBank (w_bank r.1)]
    else [].
  Fixpoint view {A} (f : wstate -> wop -> list A) (w : wstate) (h : list wop) : list A :=
    match h with [] => [] | op :: r => f w op ++ view f (wstep cfg w op).1 r end.
  Definition priv_view (h : list wop) : list (origin * ucall) :=
    omap (fun op => match op.2 with WPriv o c => Some (o, c) | _ => None end) h.
End views.

(** The events of one pallet, with the time of the block. *)
Definition events_of {A} (f : wev -> option A) (log : list (wop * wout)) : list (N * A) :=
  concat (map (fun e => match e.2 with WDone ev => map (fun v => (wx_ms e.1.1, v)) (omap f ev) | _ => [] end) log).
Definition staking_event (e : wev) : option Model_Staking.kev := match e with VStaking v => Some v | _ => None end.
Definition release_event (e : wev) : option Model_Operation.oev := match e with VRelease v => Some v | _ => None end.
Definition adsc_event (e : wev) : option Model_Adsc.aev := match e with VAdsc v => Some v | _ => None end.

(** Time goes on. *)
Fixpoint in_time (ms : N) (h : list wop) : Prop :=
  match h with
  | [] => True
  | op :: r => ms <= wx_ms op.1 /\ wx_ms op.1 / 86400000 < 2 ^ 32 /\ in_time (wx_ms op.1) r
  end.

(** ** Ceilings *)

(** What is left of the staking pallet's mining pool. *)
Definition left_to_mint (cfg : wcfg) (w : wstate) : N :=
  Spec_Staking.mining_pool (jc_s (wc_chain cfg)) (j_s (w_chain w)).
(** What rewards and mints created, and by how much Root raised the pool. *)
Definition mints (log : list (wop * wout)) : N := Spec_Staking.minted (map snd (events_of staking_event log)).
Definition raises (log : list (wop * wout)) : N := Spec_Staking.raised (map snd (events_of staking_event log)).
Definition releases_sum (log : list (wop * wout)) : N := Spec_Operation.paid_out (events_of release_event log).
(** What the ADSC pool was filled with. *)
Definition pooled1 (upgraded : bool) (e : wop * wout) : N :=
  match e.2 with WDone _ => pooled upgraded e.1.2 | _ => 0 end.
Fixpoint pool_fills (upgraded : bool) (l : list (wop * wout)) : N :=
  match l with [] => 0 | e :: r => pooled1 upgraded e + pool_fills (upgraded || upgrades e.1.2) r end.
(** Half a unit for each validator, where a pool that is almost empty is shared out. *)
Definition rounding1 (cfg : wcfg) (w : wstate) (op : wop) : N :=
  match op.2 with
  | WBlock (BEndSession _) =>
      let s := j_s (w_chain w) in
      let half := N.of_nat (length (Spec_Staking.on_duty s)) / 2 in
      if Model_Staking.p_reward (Model_Staking.k_par s) + half <=? left_to_mint cfg w then 0 else half
  | _ => 0
  end.
Fixpoint roundings (cfg : wcfg) (w : wstate) (h : list wop) : N :=
  match h with [] => 0 | op :: r => rounding1 cfg w op + roundings cfg (wstep cfg w op).1 r end.
(** Every state before a step satisfies [P]. *)
Fixpoint along (cfg : wcfg) (P : wstate -> Prop) (w : wstate) (h : list wop) : Prop :=
  match h with [] => True | op :: r => P w /\ along cfg P (wstep cfg w op).1 r end.
(** At most 10^9 points in an era; the pool and half a unit per validator fit u128. *)
Definition few_points (cfg : wcfg) (w : wstate) : Prop :=
  Spec_Staking.small_points (jc_s (wc_chain cfg)) (j_s (w_chain w)).
(** Limits that Root sets for released stakes. *)
Definition limits_up_to (S D : N) (op : wop) : Prop :=
  match op.2 with WOperation _ (Model_Operation.OSetLimits s d) => s <= S /\ d <= D | _ => True end.
