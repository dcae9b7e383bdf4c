(** Properties of the whole chain: what ordinary accounts can do to others. *)
From Verif Require Import Base Balances Model_UserPrivileges.
From Verif Require Props_Chain Model_CreditAccumulation Model_Credit Model_Staking Model_StakingLedger Model_DeeperNode Model_Micropayment Model_Operation Model_Adsc Model_Tips.
From Verif Require Import Model_Chain Model_World Spec_World Spec_World6 Spec_World7.
From Verif Require Import Proofs_World2 Proofs_World3 Proofs_World16 Proofs_World17 Proofs_World18 Props_World.
From stdpp Require Import gmap strings.
Open Scope N_scope.
Local Notation D := Model_Credit.DPR.

(** * C174: an ordinary account changes only its own affairs *)
Section affairs.
Context (cfg : wcfg) (Hs : Model_Credit.kc_step (jc_c (wc_chain cfg)) <> Model_Credit.U64MAX).
Context (b : bank) (p : Model_Staking.pars) (settings : list Model_Credit.setting)
  (data : list (N * Model_Credit.cdata)) (evm : list (N * N)) (u : Model_Adsc.uniques).
Local Notation g := (wgenesis b p settings data evm u).

(** Whatever happened before: a call signed by an account without privileges leaves
    everything the chain keeps about any other account as it was, unless it manages a
    stake as its controller, removes a stake on an account that has only the existential
    deposit, or closes a tip in credits. *)
Theorem C174_others h x a me you :
  money b + created false (wlog cfg g h) < 2 ^ 128 -> let w := wrun cfg g h in
  signer a = Some me -> ordinary h me -> me <> you -> ~ on_behalf cfg w me a you ->
  affairs_of (wstep cfg w (x, a)).1 you = affairs_of w you.
Proof.
  intros F w Hm Ho Hn Hb. apply same_affairs, (step_others cfg Hs (granted h) w x a you me); auto.
  - apply genesis_priv.
  - destruct (C150_supply cfg b p settings data evm u h Hs F) as [E _]. fold w in E. change two128 with (2 ^ 128). lia.
  - apply (run_wpaired cfg Hs); [|exact (genesis_wpaired b p settings data evm u)]. rewrite (genesis_supply cfg Hs). exact F.
Qed.
(** So however many calls others make, they change nothing. *)
Theorem C174_always h1 h2 you :
  money b + created false (wlog cfg g (h1 ++ h2)) < 2 ^ 128 -> let w := wrun cfg g h1 in
  by_others cfg h1 w h2 you -> affairs_of (wrun cfg w h2) you = affairs_of w you.
Proof.
  intros F w Hb. unfold w. apply (run_others cfg Hs h2 h1 (wrun cfg g h1)); [apply genesis_priv| | |exact Hb].
  - apply (created_split cfg Hs h2 h1 g). rewrite (genesis_supply cfg Hs). exact F.
  - apply (run_wpaired cfg Hs); [|exact (genesis_wpaired b p settings data evm u)].
    rewrite (genesis_supply cfg Hs). unfold wlog in *. eapply N.le_lt_trans; [|exact F]. apply N.add_le_mono_l, (created_prefix cfg Hs).
Qed.
End affairs.
Print Assumptions C174_others.
Print Assumptions C174_always.

(** Accounts 3 and 6 bond, pay account 5 and each other, open a channel to account 5 and
    report a tip for it; account 5 has credit, a device, a delegation and a reserve. *)
Definition xwothers : list wop :=
  [stk 40 6 (Model_Staking.KBond 16 (50 * D) Model_Staking.PStash); stk 40 6 (Model_Staking.KBondExtra D);
   at_ 40 (WTransfer 3 5 (7 * D)); at_ 41 (WNode (Signed 3) (Model_DeeperNode.DRegister "US"%string));
   at_ 41 (WTransfer 3 16 (7 * D)); stk 41 16 (Model_Staking.KUnbond (10 * D));
   at_ 41 (WTips (Signed 3) (Model_Tips.TReport [4; 5] 5)); at_ 42 (WChannel 3 (Model_Micropayment.MOpen 5 (60 * D) 30))].
Example C174_example :
  let w := wrun xwcfg xw0 xwh in
  by_others xwcfg xwh w xwothers 5 /\ map fine (wouts xwcfg w xwothers) = repeat true 8 /\
  money xwbank + created false (wlog xwcfg xw0 (xwh ++ xwothers)) < 2 ^ 128 /\
  (let f := affairs_of w 5 in
   (Model_Credit.cd_credit <$> af_record f, Model_DeeperNode.n_expire <$> af_device f, Model_Staking.dr_vals <$> af_delegation f,
    af_locked f, af_heartbeat f, Model_Operation.r_total <$> af_release f) =
   (Some 150, Some 12, Some [1], Some (70 * D), Some 13, Some (300 * D))).
Proof.
  split; [|split; [vm_compute; reflexivity|split; [vm_compute; reflexivity|vm_compute; reflexivity]]].
  unfold xwothers. cbn [by_others snd].
  repeat (split; [eexists; split; [reflexivity|split; [discriminate|split; [intros []; vm_compute; reflexivity|]]]; try (intros []; fail)|]);
    [|exact Logic.I].
  vm_compute. discriminate.
Qed.
(** The exceptions are real: the controller changes the stake of its stash, an account with
    a privilege the credit of anybody. *)
Example C174_exceptions :
  let w := wrun xwcfg xw0 xwh in
  let r := wstep xwcfg w (stk 40 11 (Model_Staking.KUnbond (10 * D))) in
  let c := wstep xwcfg w (at_ 40 (WCredit (Signed 10) (Model_Credit.KSetNoSwitch [5]))) in
  fine r.2 = true /\ on_behalf xwcfg w 11 (WStaking (Signed 11) (JOf (Model_Staking.KUnbond (10 * D)))) 1 /\
  Model_StakingLedger.l_active <$> af_stake (affairs_of w 1) = Some (600 * D) /\
  Model_StakingLedger.l_active <$> af_stake (affairs_of r.1 1) = Some (590 * D) /\
  fine c.2 = true /\ af_stays (affairs_of w 5) = None /\ af_stays (affairs_of c.1 5) = Some true.
Proof. vm_compute. repeat split. Qed.

(** * C175: nobody is kept from acting *)

(** The full statement, false: whatever an account can do, it can still do after others have
    acted. Account 3 has money and could bond; account 6 bonds a trifle and names
    account 3 its controller; now account 3 can no longer be its own controller. *)
Definition xwblock : list wop := [stk 40 6 (Model_Staking.KBond 3 (D / 5) Model_Staking.PStash)].
Theorem C175_refuted : exists cfg b p settings data evm u h1 h2 x a you,
  let w := wrun cfg (wgenesis b p settings data evm u) h1 in
  let w' := wrun cfg w h2 in
  by_others cfg h1 w h2 you /\ signer a = Some you /\ acct_of (w_bank w') you = acct_of (w_bank w) you /\
  succeeds cfg w (x, a) /\ ~ succeeds cfg w' (x, a).
Proof.
  exists xwcfg, xwbank, Props_Chain.jpars, Props_Chain.jsettings, Props_Chain.jdata, [], (Model_Adsc.Uniques ∅ ∅ ∅), xwh, xwblock,
    (xw 41 (21 * DAY)), (WStaking (Signed 3) (JOf (Model_Staking.KBond 3 (500 * D) Model_Staking.PStaked))), 3.
  cbv zeta. split; [|split; [reflexivity|split; [vm_compute; reflexivity|split]]].
  - cbn [by_others xwblock]. split; [|exact Logic.I]. exists 6. split; [reflexivity|]. split; [discriminate|].
    split; [intros []; vm_compute; reflexivity|intros []].
  - eexists. vm_compute. reflexivity.
  - intros [ev E]. vm_compute in E. discriminate.
Qed.
Print Assumptions C175_refuted.
(** An address for rewards, once taken, is lost to everybody else: the operator signs for the
    account, not for the address it asks for. *)
Theorem C175_address_refuted : exists cfg b p settings data evm u h1 h2 x a you,
  let w := wrun cfg (wgenesis b p settings data evm u) h1 in
  let w' := wrun cfg w h2 in
  by_others cfg h1 w h2 you /\ signer a = Some you /\ acct_of (w_bank w') you = acct_of (w_bank w) you /\
  succeeds cfg w (x, a) /\ ~ succeeds cfg w' (x, a) /\ exists n sg e, a = WNode (Signed you) (Model_DeeperNode.DRewardMapping n sg e).
Proof.
  exists xwcfg, xwbank, Props_Chain.jpars, Props_Chain.jsettings, Props_Chain.jdata, [], (Model_Adsc.Uniques ∅ ∅ ∅),
    (xwh ++ [at_ 39 (WProof Root (Model_CreditAccumulation.ASetKey 77))]),
    [at_ 40 (WNode (Signed 6) (Model_DeeperNode.DRewardMapping 0 (repeat 7 64) 777))],
    (xw 41 (21 * DAY)), (WNode (Signed 3) (Model_DeeperNode.DRewardMapping 0 (repeat 7 64) 777)), 3.
  cbv zeta. split; [|split; [reflexivity|split; [vm_compute; reflexivity|split; [|split]]]].
  - cbn [by_others]. split; [|exact Logic.I]. exists 6. split; [reflexivity|]. split; [discriminate|].
    split; [intros []; vm_compute; reflexivity|intros []].
  - eexists. vm_compute. reflexivity.
  - intros [ev E]. vm_compute in E. discriminate.
  - eauto.
Qed.
Print Assumptions C175_address_refuted.

(** What holds: the calls by which an account manages the stake it controls, ends its
    delegation and keeps or gives up its device cannot be prevented by others. *)
Section kept.
Context (cfg : wcfg) (Hs : Model_Credit.kc_step (jc_c (wc_chain cfg)) <> Model_Credit.U64MAX).
Context (b : bank) (p : Model_Staking.pars) (settings : list Model_Credit.setting)
  (data : list (N * Model_Credit.cdata)) (evm : list (N * N)) (u : Model_Adsc.uniques).
Local Notation g := (wgenesis b p settings data evm u).
Theorem C175_partial h1 h2 x a you :
  money b + created false (wlog cfg g (h1 ++ h2)) < 2 ^ 128 -> let w := wrun cfg g h1 in
  by_others cfg h1 w h2 you ->
  (forall st, Model_Staking.s_bonded (Model_Staking.k_stk (j_s (w_chain w))) !! st = Some you -> by_others cfg h1 w h2 st) ->
  manages a you -> succeeds cfg w (x, a) -> succeeds cfg (wrun cfg w h2) (x, a).
Proof.
  intros F w Hy Hst M. apply (manages_after cfg w _ x a you M).
  - apply (run_wpaired cfg Hs); [|exact (genesis_wpaired b p settings data evm u)].
    rewrite (genesis_supply cfg Hs). eapply N.le_lt_trans; [|exact F]. apply N.add_le_mono_l, (created_prefix cfg Hs).
  - exact (C174_always cfg Hs b p settings data evm u h1 h2 you F Hy).
  - intros st B. exact (C174_always cfg Hs b p settings data evm u h1 h2 st F (Hst st B)).
Qed.
End kept.
Print Assumptions C175_partial.
(** After the others' calls of C174's example account 5 ends its delegation and gives up its
    device, and the controller 11 unbonds. *)
Example C175_example :
  let w := wrun xwcfg (wrun xwcfg xw0 xwh) xwothers in
  succeeds xwcfg w (stk 50 5 Model_Staking.KUndelegate) /\
  succeeds xwcfg w (at_ 50 (WNode (Signed 5) Model_DeeperNode.DUnregister)) /\
  succeeds xwcfg w (stk 50 11 (Model_Staking.KUnbond (10 * D))).
Proof. repeat split; eexists; vm_compute; reflexivity. Qed.
