(** Properties of the runtime's own pallets in one chain. *)
From Verif Require Import Base Balances Model_UserPrivileges Spec_UserPrivileges Proofs_UserPrivileges.
From Verif Require Model_Credit Model_Staking Model_DeeperNode Model_CreditAccumulation.
From Verif Require Model_Micropayment Model_Operation Model_Adsc Model_Tips Spec_Tips.
From Verif Require Import Model_Chain Model_World Spec_World Proofs_World2 Proofs_World3 Proofs_World4.
From Verif Require Props_Chain Props_Chain5 Props_Tips Proofs_Tips4.
From stdpp Require Import gmap strings.
Open Scope N_scope.
Local Notation D := Model_Credit.DPR.

(** ** A chain and some of its life *)
Definition xwcfg : wcfg :=
  WCfg Props_Chain.jxcfg (Model_DeeperNode.DCfg (D / 5) (100 * D) 7 10 (<["US" := "North America"]> ∅)%string)
    (Model_Micropayment.MCfg (D / 5) 5 10 (fun k => k)) (Model_Operation.OCfg (D / 5) (50 * D) 99 (fun a => a))
    (Model_Adsc.ACfg (D / 5) 98 (fun a => a))
    (Model_Tips.TCfg (D / 5) 100 15 D 5 20 (20 * D) (fun l => Npos (encode l)) (fun a b => Npos (encode (a, b))))
    (fun _ _ sg => bool_decide (sg = [7]) || bool_decide (sg = repeat 7 64)) (fun l => l).
Definition DAY : N := 86400000.
Definition xw (now ms : N) : wctx :=
  WCtx now ms [21; 22; 23] false (fun _ => 0) (fun _ => 0) (fun _ => true) (fun _ => true) (0, repeat 7 64) (fun _ => false) true.
Definition xwbank : bank :=
  Bank (list_to_map [(1, Acct (1000 * D) 0 0); (2, Acct (1000 * D) 0 0); (3, Acct (1000 * D) 0 0);
                     (5, Acct (9000 * D) 0 0); (6, Acct (300 * D) 40 0); (99, Acct (1000 * D) 0 0)]) 0.
Definition xw0 : wstate :=
  wgenesis xwbank Props_Chain.jpars Props_Chain.jsettings Props_Chain.jdata [] (Model_Adsc.Uniques ∅ ∅ ∅).
Definition at_ (now : N) (a : wact) : wop := (xw now (20 * DAY + now * 5000), a).
Definition stk (now who : N) (c : Model_Staking.kcall) : wop := at_ now (WStaking (Signed who) (JOf c)).
Definition era_ (now i : N) : list wop :=
  map (fun b => at_ now (WBlock b)) [BNewSession i; BStartSession i; BStakingFinal].
(** Root names officers; validators bond and are elected; accounts 5 and 6 delegate. *)
Definition xwsetup : list wop :=
  [at_ 1 (WPriv Root (USetUser 7 NpowMint)); at_ 1 (WPriv Root (USetUser 8 ReleaseSetter));
   at_ 1 (WPriv Root (USetUser 9 LockerMember)); at_ 1 (WPriv Root (USetUser 10 CreditAdmin));
   at_ 1 (WCredit (Signed 10) (Model_Credit.KSetBalances (Props_Chain5.jlist 9)));
   stk 1 1 (Model_Staking.KBond 11 (500 * D) Model_Staking.PStaked);
   stk 1 2 (Model_Staking.KBond 12 (300 * D) Model_Staking.PStash);
   stk 2 11 Model_Staking.KValidate; stk 2 12 Model_Staking.KValidate] ++
  era_ 3 0 ++ era_ 5 2 ++
  [stk 12 5 (Model_Staking.KDelegate [1]); at_ 12 (WNode (Signed 5) (Model_DeeperNode.DRegister "US"%string));
   at_ 13 (WNode (Signed 5) Model_DeeperNode.DImOnline); at_ 13 (WBlock (BAuthor 1))].
(** Then: a mint for nPoW, a try without the privilege, a level bought, a
    channel with a claim, a report of a tip, a reservation, an upgrade, payouts, a stake
    set to be released, and blocks of the next day. *)
Definition xwlife : list wop :=
  [at_ 14 (WStaking (Signed 7) (JOf (Model_Staking.KNpow 6 (25 * D))));
   at_ 14 (WStaking (Signed 8) (JOf (Model_Staking.KNpow 8 (25 * D))));
   at_ 14 (WBlock BRelease); stk 14 5 (Model_Staking.KStakeDelegate 3);
   at_ 14 (WChannel 6 (Model_Micropayment.MOpen 5 (60 * D) 30));
   at_ 15 (WChannel 5 (Model_Micropayment.MClaim 6 1 (20 * D) [7]));
   at_ 15 (WTips (Signed 6) (Model_Tips.TReport [1; 2; 3] 5));
   at_ 15 (WOperation (Signed 9) (Model_Operation.OReserve 5 (70 * D)));
   at_ 15 (WOperation (Signed 6) (Model_Operation.OReserve 5 (70 * D)));
   at_ 15 (WBlock (BAdsc Model_Adsc.AUpgrade));
   at_ 15 (WTransfer 5 6 (10 * D)); at_ 15 (WRelease 6 30);
   at_ 15 (WBlock (BNewSession 4)); at_ 15 (WBlock (BEndSession 3)); at_ 15 (WBlock (BStartSession 4)); at_ 15 (WBlock BStakingFinal)] ++
  map (fun n => at_ n (WBlock BStakingInit)) [20; 21; 22; 23; 24] ++
  [at_ 24 (WOperation (Signed 8) (Model_Operation.OUnstake 5 3 (20 * DAY) (300 * D)))] ++
  map (fun n => (xw n (21 * DAY + n), WBlock BRelease)) [25; 26; 27; 28].
Definition xwh : list wop := xwsetup ++ xwlife.

(** * C149: powers come from Root *)

(** Whatever happened before: a call that has an effect comes from an origin that may
    make it, and which privileges an account holds follows from Root's calls alone. *)
Theorem C149_powers cfg b p settings data evm u h x a w' ev :
  let w := wrun cfg (wgenesis b p settings data evm u) h in
  wstep cfg w (x, a) = (w', WDone ev) -> effective w w' a ev -> allowed (granted h) x a.
Proof. intros w H E. eapply step_allowed; [apply genesis_priv|exact H|exact E]. Qed.
Print Assumptions C149_powers.

(** An account to which Root has never given a privilege cannot do with any call what
    needs it. *)
Theorem C149_never cfg b p settings data evm u h x a w' ev me q :
  let w := wrun cfg (wgenesis b p settings data evm u) h in
  (forall y, (y, WPriv Root (USetUser me q)) ∉ h) -> needs a = Some (Signed me, POfficer q) ->
  wstep cfg w (x, a) = (w', WDone ev) -> ~ effective w w' a ev.
Proof.
  intros w Hn Ha H E. pose proof (C149_powers _ _ _ _ _ _ _ _ _ _ _ _ H E) as A. unfold allowed in A. rewrite Ha in A.
  destruct A as (m & [= <-] & A). destruct (granted_by _ _ _ A) as [y Hy]. exact (Hn y Hy).
Qed.
Print Assumptions C149_never.
Definition fine (o : wout) : bool := match o with WDone _ => true | _ => false end.
Example C149_example :
  map fine (wouts xwcfg xw0 xwh) = repeat true 20 ++ [false] ++ repeat true 6 ++ [false] ++ repeat true 17 /\
  map needs (map snd (firstn 2 xwlife)) = [Some (Signed 7, POfficer NpowMint); Some (Signed 8, POfficer NpowMint)] /\
  acc_holds (granted xwh) 7 NpowMint = true /\ acc_holds (granted xwh) 8 NpowMint = false /\
  acc_holds (granted xwh) 8 ReleaseSetter = true.
Proof. vm_compute. repeat split. Qed.

(** * C150: the amount of DPR *)

(** All DPR that ever exists is what the genesis balances held and what the rewards, the
    mints, the released stakes and the fillings of the ADSC pool report as created: free,
    reserved, in channels or destroyed. No other call of these pallets makes or loses any. *)
Theorem C150_supply cfg b p settings data evm u h :
  Model_Credit.kc_step (jc_c (wc_chain cfg)) <> Model_Credit.U64MAX ->
  let g := wgenesis b p settings data evm u in
  let made := created false (wlog cfg g h) in
  money b + made < 2 ^ 128 ->
  supply (wrun cfg g h) = money b + made /\ lost b <= lost (w_bank (wrun cfg g h)).
Proof.
  intros Hs g made F. assert (G : supply g = money b).
  { rewrite supply_money. cbn. unfold Spec_Micropayment.sum_channels. cbn. rewrite msum_empty. lia. }
  destruct (run_eff cfg Hs h g false eq_refl) as (A & B & _); [rewrite G; exact F|].
  rewrite G in A. split; [exact A|exact B].
Qed.
Print Assumptions C150_supply.

(** Who creates DPR: the hooks that pay delegators, validators and released stakes, the
    first upgrade, Root, and holders of NpowMint and ReleaseSetter. *)
Theorem C150_who cfg b p settings data evm u h x a w' out up :
  Model_Credit.kc_step (jc_c (wc_chain cfg)) <> Model_Credit.U64MAX ->
  wstep cfg (wrun cfg (wgenesis b p settings data evm u) h) (x, a) = (w', out) ->
  created1 up ((x, a), out) <> 0 -> may_create (granted h) a.
Proof. intros Hs. apply step_create; [exact Hs|apply genesis_priv]. Qed.
Print Assumptions C150_who.

(** A mint for nPoW, the pay of a validator and of a delegator, a day of a released
    stake, and the first upgrade. *)
Example C150_example :
  let log := wlog xwcfg xw0 xwh in
  List.filter (fun v => negb (v =? 0)) (map (created1 false) log) =
    [25 * D; 100000000 * D; 100 * D; 2739725505377981000; 100 * D] /\
  supply xw0 = 13300 * D + 40 /\ supply (wrun xwcfg xw0 xwh) = supply xw0 + created false log /\
  (forall x, may_create (granted xwh) (WStaking (Signed 7) (JOf (Model_Staking.KNpow 6 x)))).
Proof. vm_compute. repeat split. Qed.

(** * C151: deposits *)

(** What is reserved on an account is at any time exactly what the chain owes it: the
    deposit of its device, those of its reports of tips, what locker members had
    reserved and what other pallets hold. So every deposit can be given back in full. *)
Theorem C151_deposits cfg b p settings data evm u h a :
  Model_Credit.kc_step (jc_c (wc_chain cfg)) <> Model_Credit.U64MAX ->
  Spec_Tips.hash_inj (Model_Tips.tc_thash (wc_tips cfg)) ->
  let g := wgenesis b p settings data evm u in
  money b + created false (wlog cfg g h) < 2 ^ 128 ->
  rsv (acct_of (w_bank (wrun cfg g h)) a) = deposits cfg (wrun cfg g h) a.
Proof.
  intros Hs Hi g F. assert (G : supply g = money b).
  { rewrite supply_money. cbn. unfold Spec_Micropayment.sum_channels. cbn. rewrite msum_empty. lia. }
  destruct (run_eff cfg Hs h g false eq_refl) as (_ & _ & C); [rewrite G; exact F|].
  apply (C Hi). split; [apply Proofs_Tips4.genesis_rinv|]. intros a0. unfold deposits. cbn.
  rewrite lookup_empty, lookup_fmap, msum_empty. unfold acct_of. destruct (accts b !! a0); reflexivity.
Qed.
Print Assumptions C151_deposits.
(** A device of account 5 and a reservation for it; a report of account 6, and what it
    had reserved at genesis without the part given back. *)
Example C151_example :
  let w := wrun xwcfg xw0 xwh in
  deposits xwcfg w 5 = 100 * D + 70 * D /\ deposits xwcfg w 6 = 23 * D + 10 /\ deposits xwcfg w 1 = 0 /\
  map (fun a => rsv (acct_of (w_bank w) a)) [5; 6; 1] = [170 * D; 23 * D + 10; 0].
Proof. vm_compute. repeat split. Qed.
