(** The runtime's own pallets in one chain (runtime/src/lib.rs:1551-1624
    construct_runtime): user-privileges, credit-accumulation, deeper-node, credit,
    staking, micropayment, operation, adsc and tips, over one set of balances.

    The models of the single pallets take the answers of the others from their
    surroundings. Here the answers come from the states of the others: privileges,
    registered devices and heartbeats, EVM addresses, the operator's keys, the limits of
    the operation pallet. Calls from one pallet into another are carried out, in the
    order of the source: a proof of traffic, a tip in credits, a release schedule and a
    burn for EZC reach the credit pallet; fees of channels reach the treasury.

    Not in the state: the elections pallet (the runtime links the upstream one), whose
    members are given to each call of the tips pallet; identity, proxy, multisig and
    other library pallets, which reserve and release deposits of their own and move
    money ([WTransfer], [WReserve], [WRelease]); locks of other pallets, reference counts
    and NFT deposits, which are part of the surroundings. *)
From Verif Require Import Base Balances Model_UserPrivileges.
From Verif Require Model_Credit Model_Staking Model_DeeperNode Model_CreditAccumulation.
From Verif Require Model_Micropayment Model_Operation Model_Adsc Model_Tips.
From Verif Require Import Model_Chain.
From stdpp Require Import gmap.
Open Scope N_scope.

Notation anode := Model_DeeperNode.dstate.
Notation aproofs := Model_CreditAccumulation.astate.
Notation achannels := Model_Micropayment.mstate.
Notation arelease := Model_Operation.ostate.
Notation aadsc := Model_Adsc.astate.
Notation atips := Model_Tips.tstate.

(** Storage. [w_bank] is what counts; every pallet is handed it before its step.
    [w_held] is what pallets outside this model hold reserved, [w_locked] what the
    locker members had reserved (operation lib.rs:281-297; nothing releases it). *)
Record wstate := W {
  w_bank : bank; w_priv : ustate; w_proofs : aproofs; w_node : anode; w_chain : jstate;
  w_chan : achannels; w_rel : arelease; w_adsc : aadsc; w_tips : atips;
  w_held : gmap N N; w_locked : gmap N N }.

(** Constants of the pallets, signature checks and hashes. *)
Record wcfg := WCfg {
  wc_chain : jcfg; wc_node : Model_DeeperNode.dcfg; wc_chan : Model_Micropayment.mcfg;
  wc_rel : Model_Operation.ocfg; wc_adsc : Model_Adsc.acfg; wc_tips : Model_Tips.tcfg;
  wc_verify : N -> list N -> list N -> bool; wc_hash : list N -> list N }.

(** What no pallet here stores: the block number, the time in milliseconds, the elected
    members and whether the origin may reject tips, the other locks of an account, what
    stays frozen when a lock is removed, reference counts, the nonce and the operator's
    signature given with a call of staking_delegate, whether the session pallet disables a validator and whether an NFT's
    deposit can be reserved. *)
Record wctx := WCtx {
  wx_now : N; wx_ms : N; wx_members : list N; wx_reject : bool;
  wx_other : N -> N; wx_frozen : N -> N; wx_dies : N -> bool; wx_consumer : N -> bool;
  wx_sig : N * list N; wx_disable : N -> bool; wx_deposit : bool }.

(** Hooks and handlers, changes of NFTs through pallet_uniques, and moves of ADSC. *)
Inductive wblock :=
| BCreditInit | BCreditFinal | BCreditUpgrade
| BStakingInit | BStakingFinal | BNewSession (i : N) | BStartSession (i : N) | BEndSession (i : N)
| BAuthor (a : N)
| BOffence (os : list (N * Model_Staking.expo * list N * N)) (session : N)
| BRelease                                    (* operation's on_finalize *)
| BAdsc (e : Model_Adsc.aent)                 (* adsc's hooks; NFTs and ADSC moved by owners *)
| BNftSet (class item : N) (owner : option N)
| BNftAdmin (class admin : N).

(** What the chain can do. *)
Inductive wact :=
| WPriv (o : origin) (c : ucall)
| WProof (o : origin) (c : Model_CreditAccumulation.acall)
| WNode (o : origin) (c : Model_DeeperNode.dcall)
| WCredit (o : origin) (c : Model_Credit.kcall)
| WStaking (o : origin) (c : jcall)
| WChannel (who : N) (c : Model_Micropayment.mcall)
| WOperation (o : origin) (c : Model_Operation.ocall)
| WAdsc (o : origin) (c : Model_Adsc.acall)
| WTips (o : origin) (c : Model_Tips.tcall)
| WEvm (caller user score : N) (add : bool)   (* the credit precompile's write *)
| WBlock (b : wblock)
| WTransfer (from to v : N)                   (* pallet_balances *)
| WReserve (who v : N)                        (* other pallets' deposits *)
| WRelease (who v : N).
Definition wop : Type := wctx * wact.

(** Events used in properties. *)
Inductive wev :=
| VStaking (e : Model_Staking.kev)
| VRelease (e : Model_Operation.oev)
| VAdsc (e : Model_Adsc.aev)
| VTips (e : Model_Tips.tev)
| VChannel (e : Model_Micropayment.mevent)
| VNode (e : Model_DeeperNode.devent).
Inductive wout := WDone (ev : list wev) | WFail | WPanic.

(** The environment moves that the models of deeper-node, micropayment and adsc contain
    are not calls of those pallets. *)
Definition node_call (c : Model_DeeperNode.dcall) : bool :=
  match c with
  | Model_DeeperNode.DTransfer _ _ | Model_DeeperNode.DReserveOther _ | Model_DeeperNode.DUnreserveOther _ => false
  | _ => true
  end.
Definition channel_call (c : Model_Micropayment.mcall) : bool :=
  match c with Model_Micropayment.MTransfer _ _ => false | _ => true end.
Definition adsc_entry (e : Model_Adsc.aent) : bool :=
  match e with Model_Adsc.ABankMove _ => false | _ => true end.

(** Replacing one part of the state. *)
Definition jsync (j : jstate) (b : bank) : jstate :=
  J (Model_Credit.set_k_bank (j_c j) b) (Model_Staking.set_k_bank (j_s j) b).
Definition set_w_bank (w : wstate) (b : bank) : wstate :=
  W b (w_priv w) (w_proofs w) (w_node w) (w_chain w) (w_chan w) (w_rel w) (w_adsc w) (w_tips w) (w_held w) (w_locked w).
Definition set_w_priv (w : wstate) (p : ustate) : wstate :=
  W (w_bank w) p (w_proofs w) (w_node w) (w_chain w) (w_chan w) (w_rel w) (w_adsc w) (w_tips w) (w_held w) (w_locked w).
Definition set_w_proofs (w : wstate) (p : aproofs) : wstate :=
  W (w_bank w) (w_priv w) p (w_node w) (w_chain w) (w_chan w) (w_rel w) (w_adsc w) (w_tips w) (w_held w) (w_locked w).
Definition set_w_node (w : wstate) (d : anode) : wstate :=
  W (Model_DeeperNode.d_bank d) (w_priv w) (w_proofs w) d (w_chain w) (w_chan w) (w_rel w) (w_adsc w) (w_tips w) (w_held w) (w_locked w).
Definition set_w_chain (w : wstate) (j : jstate) : wstate :=
  W (Model_Staking.k_bank (j_s j)) (w_priv w) (w_proofs w) (w_node w) j (w_chan w) (w_rel w) (w_adsc w) (w_tips w) (w_held w) (w_locked w).
Definition set_w_chan (w : wstate) (m : achannels) : wstate :=
  W (Model_Micropayment.m_bank m) (w_priv w) (w_proofs w) (w_node w) (w_chain w) m (w_rel w) (w_adsc w) (w_tips w) (w_held w) (w_locked w).
Definition set_w_rel (w : wstate) (r : arelease) : wstate :=
  W (Model_Operation.o_bank r) (w_priv w) (w_proofs w) (w_node w) (w_chain w) (w_chan w) r (w_adsc w) (w_tips w) (w_held w) (w_locked w).
Definition set_w_adsc (w : wstate) (a : aadsc) : wstate :=
  W (Model_Adsc.a_bank a) (w_priv w) (w_proofs w) (w_node w) (w_chain w) (w_chan w) (w_rel w) a (w_tips w) (w_held w) (w_locked w).
Definition set_w_tips (w : wstate) (t : atips) : wstate :=
  W (Model_Tips.t_bank t) (w_priv w) (w_proofs w) (w_node w) (w_chain w) (w_chan w) (w_rel w) (w_adsc w) t (w_held w) (w_locked w).
Definition set_w_held (w : wstate) (m : gmap N N) : wstate :=
  W (w_bank w) (w_priv w) (w_proofs w) (w_node w) (w_chain w) (w_chan w) (w_rel w) (w_adsc w) (w_tips w) m (w_locked w).
Definition set_w_locked (w : wstate) (m : gmap N N) : wstate :=
  W (w_bank w) (w_priv w) (w_proofs w) (w_node w) (w_chain w) (w_chan w) (w_rel w) (w_adsc w) (w_tips w) (w_held w) m.

(** Micropayment with the balances handed over; the counter of fees starts anew, so that
    after the call it is what the call has handed to the treasury. *)
Definition chan_bank (m : achannels) (b : bank) : achannels :=
  Model_Micropayment.MState b (Model_Micropayment.m_chan m) (Model_Micropayment.m_nonce m)
    (Model_Micropayment.m_sess m) (Model_Micropayment.m_total m) 0.

Section model.
  Context (cfg : wcfg).

  Section step.
    Context (x : wctx) (w : wstate).
    Local Notation now := (wx_now x).

    (** ** What the pallets answer each other *)

    (** deeper-node lib.rs:929-934 get_eras_offline. *)
    Definition offline (a : N) : N := Model_DeeperNode.eras_offline (wc_node cfg) (w_node w) now a.
    (** user-privileges lib.rs:265-281. *)
    Definition may_use (a : N) (p : privilege) : bool := has_privilege (w_priv w) a p.
    (** The surroundings of the credit pallet (runtime/src/lib.rs:1305-1325). *)
    Definition cctx : Model_Credit.kctx :=
      Model_Credit.KCtx now (wx_ms x / 1000) (fun a => Model_DeeperNode.d_onboard (w_node w) !! a) offline
        (fun e => Model_DeeperNode.d_e2d (w_node w) !! e) may_use (has_evm_privilege (w_priv w)).
    (** The surroundings of the staking pallet (611-650); the operator's signature is checked
        by credit-accumulation (staking lib.rs:1063). *)
    Definition wjctx : jctx :=
      JCtx cctx (Model_Operation.is_single_max_limit (w_rel w)) (wx_other x) (wx_dies x) (wx_consumer x)
        (Model_CreditAccumulation.verify_atomos_signature (wc_verify cfg) (wc_hash cfg) (w_proofs w) (wx_sig x).1 (wx_sig x).2)
        (wx_disable x).
    (** The surroundings of the deeper-node pallet (1265-1275). *)
    Definition nctx : Model_DeeperNode.dctx :=
      Model_DeeperNode.DCtx now
        (Model_CreditAccumulation.verify_atomos_signature (wc_verify cfg) (wc_hash cfg) (w_proofs w))
        (Model_CreditAccumulation.verify_atomos_new_signature (wc_verify cfg) (wc_hash cfg) (w_proofs w)).
    (** The surroundings of the micropayment pallet (1244-1257). *)
    Definition mctx : Model_Micropayment.mctx := Model_Micropayment.MCtx now offline.
    (** The surroundings of the adsc pallet (1455-1465). *)
    Definition actx : Model_Adsc.actx :=
      Model_Adsc.ACtx (wx_ms x) offline (fun a => may_use a CreditAdmin) (wx_deposit x).
    (** The surroundings of the tips pallet (895-910). *)
    Definition tctx : Model_Tips.tctx := Model_Tips.TCtx now (wx_members x) (wx_reject x).

    (** ** Steps of the single pallets *)

    (** Credit and staking. *)
    Definition wjstep (a : jact) : jstate * jout := jstep (wc_chain cfg) (jsync (w_chain w) (w_bank w)) (wjctx, a).
    Definition of_chain (r : jstate * jout) : wstate * wout :=
      match r with
      | (j, JDone ev) => (set_w_chain w j, WDone (map VStaking ev))
      | (_, JFail) => (w, WFail)
      | (_, JPanic) => (w, WPanic)
      end.
    (** A call into the credit pallet (CreditInterface); an error or a panic is the caller's. *)
    Definition to_credit (e : Model_Credit.kentry) (ev : list wev) (w0 : wstate) : wstate * wout :=
      match wjstep (JEntry e) with
      | (j, JDone _) => (set_w_chain w j, WDone ev)
      | (_, JFail) => (w0, WFail)
      | (_, JPanic) => (w0, WPanic)
      end.
  End step.

  (** operation lib.rs:358: whether do_unstaking_slash_credit succeeds. *)
  Definition slashable (x : wctx) (w : wstate) (a : N) : bool :=
    match (wjstep x w (JEntry (Model_Credit.KUnstaking a))).2 with JFail => false | _ => true end.
  (** The surroundings of the operation pallet (runtime/src/lib.rs:515-527). *)
  Definition octx (x : wctx) (w : wstate) : Model_Operation.octx :=
    Model_Operation.OCtx (wx_ms x) (fun a => may_use w a LockerMember) (fun a => may_use w a ReleaseSetter)
      (fun a => may_use w a BridgeAdmin) (slashable x w) (wx_frozen x).

  (** credit-accumulation lib.rs:115-135, 131 calling update_credit_by_traffic. *)
  Definition wproof (x : wctx) (w : wstate) (o : origin) (c : Model_CreditAccumulation.acall) : wstate * wout :=
    match Model_CreditAccumulation.astep (wc_verify cfg) (wc_hash cfg) (w_proofs w) o c with
    | (p, ROk _) =>
        match o, c with
        | Signed a, Model_CreditAccumulation.AAddCredit _ _ =>
            to_credit x (set_w_proofs w p) (Model_Credit.KTraffic a) [] w
        | _, _ => (set_w_proofs w p, WDone [])
        end
    | (_, RErr _) => (w, WFail)
    | (_, RPanic) => (w, WPanic)
    end.
  (** The calls of deeper-node. *)
  Definition wnode (x : wctx) (w : wstate) (o : origin) (c : Model_DeeperNode.dcall) : wstate * wout :=
    if negb (node_call c) then (w, WFail) else
    match Model_DeeperNode.dstep (wc_node cfg) (Model_DeeperNode.with_bank (w_node w) (w_bank w)) (nctx x w) o c with
    | (d, ROk ev) => (set_w_node w d, WDone (map VNode ev))
    | (_, RErr _) => (w, WFail)
    | (_, RPanic) => (w, WPanic)
    end.
  (** The calls of micropayment; what it hands to [T::Slash] = Treasury (lib.rs:544) is
      deposited once, at the end of the call. *)
  Definition wchannel (x : wctx) (w : wstate) (who : N) (c : Model_Micropayment.mcall) : wstate * wout :=
    if negb (channel_call c) then (w, WFail) else
    let m0 := chan_bank (w_chan w) (w_bank w) in
    match Model_Micropayment.mstep (wc_chan cfg) (wc_verify cfg) m0 (mctx x w) who c with
    | (m, ROk ev) =>
        let fee := Model_Micropayment.m_slashed m in
        let w1 := set_w_chan w m in
        (set_w_bank w1 (deposit_creating (Model_Micropayment.m_ed (wc_chan cfg)) (w_bank w1)
                          (Model_Operation.oc_treasury (wc_rel cfg)) fee),
         WDone (map VChannel ev))
    | (_, RErr _) => (w, WFail)
    | (_, RPanic) => (w, WPanic)
    end.
  (** The calls of operation; lib.rs:358 and 404 call the credit pallet. *)
  Definition woperation (x : wctx) (w : wstate) (o : origin) (c : Model_Operation.ocall) : wstate * wout :=
    match Model_Operation.ostep (wc_rel cfg) (Model_Operation.set_o_bank (w_rel w) (w_bank w)) (octx x w) o c with
    | (r, ROk ev) =>
        let w1 := set_w_rel w r in
        let v := map VRelease ev in
        match c with
        | Model_Operation.OUnstake who _ _ _ => to_credit x w1 (Model_Credit.KUnstaking who) v w
        | Model_Operation.OBurn amount => to_credit x w1 (Model_Credit.KBurnRecord amount) v w
        | Model_Operation.OReserve who amount =>
            (set_w_locked w1 (<[who := default 0 (w_locked w1 !! who) + amount]> (w_locked w1)), WDone v)
        | _ => (w1, WDone v)
        end
    | (_, RErr _) => (w, WFail)
    | (_, RPanic) => (w, WPanic)
    end.
  Definition wadsc (x : wctx) (w : wstate) (o : origin) (c : Model_Adsc.acall) : wstate * wout :=
    match Model_Adsc.astep (wc_adsc cfg) (Model_Adsc.set_a_bank (w_adsc w) (w_bank w)) (actx x w) o c with
    | (a, ROk ev) => (set_w_adsc w a, WDone (map VAdsc ev))
    | (_, RErr _) => (w, WFail)
    | (_, RPanic) => (w, WPanic)
    end.
  (** The calls of tips; lib.rs:721 calls update_credit_by_tip. *)
  Definition tipped (ev : list Model_Tips.tev) : option (N * N) :=
    match ev with Model_Tips.TCredit who v :: _ => Some (who, v) | _ => None end.
  Definition wtips (x : wctx) (w : wstate) (o : origin) (c : Model_Tips.tcall) : wstate * wout :=
    match Model_Tips.tstep (wc_tips cfg) (Model_Tips.set_bank (w_tips w) (w_bank w)) (Model_Tips.TCall (tctx x) o c) with
    | (t, Model_Tips.TDone ev) =>
        let w1 := set_w_tips w t in
        match tipped ev with
        | Some (who, v) => to_credit x w1 (Model_Credit.KTip who v) (map VTips ev) w
        | None => (w1, WDone (map VTips ev))
        end
    | (_, Model_Tips.TFail _) => (w, WFail)
    | (_, Model_Tips.TPanic) => (w, WPanic)
    end.
  (** Hooks and handlers. *)
  Definition wblock_step (x : wctx) (w : wstate) (b : wblock) : wstate * wout :=
    let chain a := of_chain w (wjstep x w a) in
    match b with
    | BCreditInit => chain (JEntry Model_Credit.KInitialize)
    | BCreditFinal => chain (JEntry Model_Credit.KFinalize)
    | BCreditUpgrade => chain (JEntry Model_Credit.KUpgrade)
    | BStakingInit => chain JInit
    | BStakingFinal => chain JFinal
    | BNewSession i => chain (JNewSession i)
    | BStartSession i => chain (JStartSession i)
    | BEndSession i => chain (JEndSession i)
    | BAuthor a => chain (JAuthor a)
    | BOffence os i => chain (JOffence os i)
    | BNftSet class item owner => chain (JEntry (Model_Credit.KNftSet class item owner))
    | BNftAdmin class admin => chain (JEntry (Model_Credit.KNftAdmin class admin))
    | BRelease =>
        let '(r, ev) := Model_Operation.on_finalize (wc_rel cfg)
                          (Model_Operation.set_o_bank (w_rel w) (w_bank w)) (octx x w) in
        (set_w_rel w r, WDone (map VRelease ev))
    | BAdsc e =>
        if negb (adsc_entry e) then (w, WFail) else
        let '(a, ev) := Model_Adsc.aentry (wc_adsc cfg)
                          (Model_Adsc.set_a_bank (w_adsc w) (w_bank w)) (actx x w) e in
        (set_w_adsc w a, WDone (map VAdsc ev))
    end.

  (** Other pallets' deposits: they release what they hold. *)
  Definition wreserve (w : wstate) (who v : N) : wstate * wout :=
    match reserve (Model_DeeperNode.d_ed (wc_node cfg)) (w_bank w) who v with
    | Some b => (set_w_held (set_w_bank w b) (<[who := default 0 (w_held w !! who) + v]> (w_held w)), WDone [])
    | None => (w, WFail)
    end.
  Definition wrelease (w : wstate) (who v : N) : wstate * wout :=
    let held := default 0 (w_held w !! who) in
    let a := N.min held v in
    (set_w_held (set_w_bank w (unreserve (Model_DeeperNode.d_ed (wc_node cfg)) (w_bank w) who a))
       (<[who := held - a]> (w_held w)), WDone []).

  Definition wstep (w : wstate) (op : wop) : wstate * wout :=
    let x := op.1 in
    match op.2 with
    | WPriv o c =>
        match ustep (w_priv w) o c with
        | (p, ROk _) => (set_w_priv w p, WDone [])
        | (_, RErr _) => (w, WFail)
        | (_, RPanic) => (w, WPanic)
        end
    | WProof o c => wproof x w o c
    | WNode o c => wnode x w o c
    | WCredit o c => of_chain w (wjstep x w (JCredit o c))
    | WStaking o c => of_chain w (wjstep x w (JCall o c))
    | WChannel who c => wchannel x w who c
    | WOperation o c => woperation x w o c
    | WAdsc o c => wadsc x w o c
    | WTips o c => wtips x w o c
    | WEvm caller user score add => of_chain w (wjstep x w (JEntry (Model_Credit.KEvmUpdate caller user score add)))
    | WBlock b => wblock_step x w b
    | WTransfer from to v =>
        match transfer_allow (Model_DeeperNode.d_ed (wc_node cfg)) (w_bank w) from to v with
        | Some b => (set_w_bank w b, WDone [])
        | None => (w, WFail)
        end
    | WReserve who v => wreserve w who v
    | WRelease who v => wrelease w who v
    end.
  Fixpoint wrun (w : wstate) (h : list wop) : wstate :=
    match h with [] => w | op :: r => wrun (wstep w op).1 r end.
  Fixpoint wouts (w : wstate) (h : list wop) : list wout :=
    match h with [] => [] | op :: r => (wstep w op).2 :: wouts (wstep w op).1 r end.

  (** Genesis: balances, the parameters of staking, campaigns and credits, EVM addresses
      and the NFTs; what accounts hold reserved belongs to other pallets. *)
  Definition wgenesis (b : bank) (p : Model_Staking.pars) (settings : list Model_Credit.setting)
      (data : list (N * Model_Credit.cdata)) (evm : list (N * N)) (u : Model_Adsc.uniques) : wstate :=
    W b uinit Model_CreditAccumulation.ainit (Model_DeeperNode.dinit b evm) (jgenesis b p settings data)
      (Model_Micropayment.minit b) (Model_Operation.oinit b) (Model_Adsc.ainit b u) (Model_Tips.tgenesis b)
      (rsv <$> accts b) ∅.
End model.
